# Design: a Rocq model of umlcc

Subject: `kumachan-mis/umlcc`, a C compiler written in C (≈15k lines of `.c`).
Pipeline: file reader → lexer → parser (AST) → resolver (typed tree, SRT) → immcgen
(intermediate code over virtual registers, "immc") → regalloc → x64gen → text.

## Method

* The model is a set of total, computable Gallina functions, one per C function, in
  `rocq/theories/*Model*.v` files. Each definition cites the file and lines it models.
* Outcomes that a C program can have besides a value are constructors of one result type
  (`Verif.Base.res`): `Ok v`, `Err` (a reported compile error), `UB` (undefined behaviour of the
  compiler itself: null dereference, out-of-range access, signed overflow where it matters),
  `Fatal` (the compiler's own "unreachable statement" + `exit(1)`), `Fuel` (model ran out of
  recursion fuel). No theorem counts `Fuel` as success; termination theorems exclude it.
* The whole pipeline is executable in the model (`vm_compute`), so the model is checked against
  the project's own unit-test expectations and the programs in `test-fixtures` (as `Example`s,
  which are tests of the model, not proofs of properties).
* Specifications (lists, finite maps, C operator grammar, C layout rules, integer semantics, x64
  instruction semantics) are in separate `*Spec.v` files that do not mention the model's helpers.
* `Prop*.v` files contain only property theorems, each closed by `exact lemma`, with
  `Print Assumptions`, plus the non-vacuity `Example`s.
* A property that is false of the faithful model is reported as `..._refuted` with a concrete
  witness, and next to it the strongest positive statement under the exact guard that excludes it.

## Trusted base

* Coq 8.16.1 kernel (including `vm_compute`).
* `Print Assumptions` of every property theorem: "Closed under the global context" (no axioms).
  `coqchk -o` on `PropWhole` and all it rests on: no axioms, no unchecked recursion or positivity.
* The reading of the C source: the tie between model and code is the cited lines.
* malloc/realloc never fail; `int` is 32-bit, `char` is signed, `long long` 64-bit (x86-64 SysV).
* C library: `strtoll`/`strtoull` saturate as specified; `sprintf` with the formats used.
* The specifications the theorems are stated against, written by us from the C11 standard, the
  System V ABI and the instruction manuals, and sharing no tables with the model:
  * `VectorSpec`, `MapSpec`: lists and finite maps.
  * `LexSpec`: spelling of tokens. `Grammar`, `WriteSpec`, `TypedefSpec`: grammar of the language,
    writing of expressions and declarations, visibility of typedef names.
  * `TypeSpec`, `ScopeSpec`, `ElabSpec`, `ResolverSpec`: layout, conversions, scopes, typing rules.
  * `CSem`, `CProgram`: evaluation of typed C programs. `InitSpec`, `ProgSpec`: initialisers, data.
  * `ImmcSem`, `ImmcProgram`: intermediate code. `GenSpec`: the classes of trees admitted.
  * `LabelSpec`, `AsmLabelSpec`: labels and jumps. `RegSpec`, `OrderSpec`: liveness, allocation.
  * `X64Isa`, `X64Decode`, `Machine`: the ~45 instructions the generator emits, on a memory of bytes.
  * `OpSpec`, `CallSpec`, `MarkSpec`, `SimSpec`, `SimCallSpec`, `SimProgSpec`: what an instruction, a call, a function, a program must do.
  * `AsmSpec`: a reader of the assembly text.
* Assumed of the assembler: the escapes of `.ascii` as in `AsmSpec`; immediates are 32 bits, sign
  extended, except for `mov` to a register.

The specifications and the model are both executable where possible. All unit tests of the project
(`Test*.v`, generated by `tools/gen_tests.py`) and its 30 end-to-end programs (`TestFixtures`) are
evaluated in the model, and the end-to-end programs also in `CSem` (`TestC`) and on `Machine`.

## Modelled / not modelled

Modelled: vector, map, set, literals, lexer, parser, dtype, symbol/tag tables, resolver, immcgen,
regalloc, liveness sequences, x64gen, x64 printing, driver.
Not modelled: memory deallocation (double free / leaks), aliasing between heap objects (the code
copies trees before sharing them; where it mutates, the model returns the new value), wording of
error messages (an error is `Err`), I/O failures of the OS, overflow of the C `int`s that hold sizes
and counts in x64gen.

## Plan per property

| id | model | how it is proved |
|----|-------|------------------|
| C01 | `VectorModel`: size, capacity, memory as a partial array | refinement to `list`, induction over op list; every access in bounds |
| C02 | `MapModel`: cell array with tombstones, linear probing | refinement to a function `key -> option val`; probe-chain invariant |
| C03 | same | `_refuted` by a witness; positive theorem when no present key is re-added |
| C04 | same | `_refuted`; positive under the same guard |
| C05 | `SetModel` over `MapModel` | from the map refinement; laws as membership equations |
| C06 | `LexerModel` | `_refuted` (unterminated literal loops); fuel bound for every other input |
| C07 | `LexerModel` + token printer in `LexSpec` | induction over the token list |
| C08 | `LexerModel` | digit-string value lemma; type rule `_refuted`, partial |
| C09 | `LiteralModel` + assembler string decoder in spec | per byte sweep lifted by induction; `_refuted` for bytes ≥ 0x80 |
| C10 | `LexerModel` | `_refuted` (byte 0xFF); positive for texts without it |
| C11 | `ParserModel` | fuel measure on remaining tokens; index stays ≤ position of EOF |
| C12 | `ParserModel` + expression printer in spec | mutual induction over trees |
| C13 | `ParserModel`, `ResolverModel` + declarator printer | induction over types |
| C14 | `ParserModel` + `Grammar` | parser accepts exactly the grammar, by induction over fuel and over derivations |
| C15 | `ParserModel` + `TypedefSpec` | along derivations of the grammar; shadowing `_refuted` |
| C16 | `DtypeModel` | induction over member list |
| C17 | `DtypeModel` | structural induction; size claim `_refuted` for tags |
| C18 | `DtypeModel` | case analysis against a declarative relation |
| C19 | `DtypeModel`, `ResolverModel` | case analysis against C11 6.3.1.8 |
| C20 | `ResolverModel` | quicksort sorts and permutes; sorted lists of permutations equal |
| C21 | `SymtabModel` | stack-of-scopes invariant |
| C22 | `SymtabModel` | offset monotonicity; alignment claim `_refuted`, partial |
| C23, C24 | `ResolverModel` | induction over expressions against a typing relation |
| C25 | `ResolverModel` | induction over statements |
| C26 | `ResolverModel` | `_refuted`; positive for side-effect free left sides |
| C27 | `ResolverModel` | induction over types; `_refuted` cases |
| C28 | `DtypeModel`, `ImmcgenModel` | arithmetic |
| C29 | `ImmcgenModel`, `X64genModel` | label-counter interval invariant; names of the source cannot be labels (`NameProofs`); no assumption left |
| C30, C31 | `ImmcgenModel` + immc semantics + C evaluation semantics in spec | forward simulation, induction over big-step derivations |
| C32, C33 | `ImmcgenModel` | induction over types; `_refuted` cases |
| C34 | `ImmcgenModel`, `X64genModel` | induction over argument lists |
| C35–C38 | `RegallocModel` | path semantics, fixpoint argument, interval argument for "orderly" code; generated code is orderly (`OrderProofs*`) |
| C39–C43 | `X64genModel` + `X64Isa` | per-instruction simulation for all register assignments |
| C44, C45 | `X64genModel` + `X64Isa` | induction over the emitted save/restore lists; marks of live registers (`MarkProofs*`) |
| C46 | `X64Model` + reader in `AsmSpec` | injectivity by decoding |
| C47 | `DriverModel` | case analysis |
| C48 | composition | source to allocated code for whole programs (`SourceProofs`); source to machine for functions without calls, functions with calls and whole programs, by forward simulation and induction on the depth of calls (`SimProofs*`); end-to-end witnesses |

## The log of seeded bugs

In `seeded/LOG.jsonl`, the entries `File.v:lemma` of `theorems_failed` are the lemmas at which the build of the edited model stopped.
The other names are property theorems whose proofs use one of these lemmas (computed from the references coqc records in `.glob` files).
They could not be built, because the lemma could not. `claim_theorems_not_shown_to_fail` lists theorems of the claimed property that do not use
a lemma seen to fail; nothing is known about them from that build. An earlier version of the log listed them as failed, and gave
nine edits the number of another property. Both are corrected.
The correction showed that the theorems of C26, C27 and C28 were about the typing rules only, so that no edit to the compiler could break them;
`C26_resolver_partial`, `C26_returned_partial`, `C27_program_partial` and `C28_resolver_partial` were added for that reason. A build stops at the first failing lemma of a file, so for entries
with `retested` it was continued, in the scratch copy only, by skipping each failing lemma.
