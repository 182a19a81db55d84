import json
P=[]
def p(title,statement,quantifier,why,anchors):
    P.append(dict(id="C%02d"%(len(P)+1),title=title,statement=statement,quantifier=quantifier,why_tests_cant=why,anchors=anchors))
# containers
p("Vector behaves as a list",
  "After any sequence of push, pop, set, insert, erase, fill and extend calls a vector's size and the element returned at every index are those of the corresponding mathematical list; set/insert/erase report failure exactly for out-of-range indices and then change nothing; at returns NULL exactly out of range; and the backing array is never written or read outside its allocated capacity.",
  "every finite sequence of vector operations on every element type (pop only on a non-empty vector, extend only with a different vector: the preconditions the code relies on)",
  "growth (doubling), shrinking (halving) and the shift loops of insert/erase interact; a test fixes one interleaving, the claim is about all of them and about an allocation bound no assertion can observe",
  ["src/vector/vector.c: vector_push, vector_pop, vector_set, vector_insert, vector_erase, vector_fill, vector_extend, vector_at"])
p("Map: latest binding wins",
  "For every history of insertions into a map (overwrites included), looking a key up returns the value of the most recent insertion of an equal key and NULL when there is none; every probe loop terminates and every probed index is inside the table.",
  "every finite history of map_add calls with any keys and any non-negative hash function, then any lookup",
  "correctness depends on collision patterns, probe chains wrapping around the table end and rehash order, i.e. on all key sets and all capacities",
  ["src/map/map.c: map_add, map_get, map_contains, update_capacity", "src/map/cell.c"])
p("Map: histories with removal",
  "For every history mixing insertions and removals a lookup returns the value of the latest insertion of that key not followed by its removal, and a removed key is absent.",
  "every finite history of map_add/map_remove calls and every key",
  "needs a specific alternation of colliding keys, deletions and re-insertions; random tests essentially never reuse a tombstone in front of a live duplicate",
  ["src/map/map.c: map_add, map_remove, map_get"])
p("Map iteration visits each binding once",
  "Iterating over a map from map_iter_begin to map_iter_end visits exactly the keys that are present, each exactly once, with their current values.",
  "every finite history of map_add/map_remove calls",
  "the iterator scans the table, so the claim depends on what every history of insertions, removals and rehashes leaves in it",
  ["src/map/map.c: map_iter_begin, map_iter_next, map_iter_key, map_iter_value, map_add, map_remove"])
p("Set operations are set-theoretic",
  "Union, intersection, difference, subset test, equality and membership on Set agree with the mathematical operations on the sets of elements added and removed.",
  "every pair of sets built by any history of set_add/set_remove calls, every element",
  "equational laws over all pairs of sets; iteration order and table layout vary with history",
  ["src/set/set.c: set_union, set_intersection, set_difference, set_issubset, set_equals, set_contains, set_add, set_remove"])
# lexer
p("Lexing terminates",
  "The lexer terminates on every source text, returning a token list ending in exactly one end-of-file token or an error.",
  "every finite byte string used as source text",
  "non-termination cannot be observed by a finite test, and the claim is over all inputs including malformed ones",
  ["src/lexer/lexer.c: lexer_read_ctokens", "src/lexer/reader.c: read_character, read_string, read_escape_sequence, read_integer"])
p("Token round trip (maximal munch)",
  "Writing any sequence of tokens as text, separated by white space, and lexing it returns exactly that sequence followed by end of file; and punctuators are recognised by longest match.",
  "every sequence of keywords, identifiers, punctuators, integer constants in decimal/octal/hex with any suffix, character constants and string literals",
  "token sequences are unbounded and adjacency effects (prefix operators, identifiers that extend keywords) are combinatorial",
  ["src/lexer/reader.c", "src/lexer/util.c"])
p("Integer constants: value and type",
  "A decimal, octal or hexadecimal constant denotes its mathematical value whenever that fits the widest type of its signedness, and its type is the first type of the C11 6.4.4.1 list that can represent the value.",
  "every digit string of every length, base and suffix",
  "numeric boundary behaviour over unbounded digit strings; tests sample a handful of values",
  ["src/lexer/reader.c: read_integer, read_suffix", "src/lexer/util.c: create_iliteral"])
p("String and character literals denote their bytes",
  "Each escape sequence denotes the byte C assigns to it, and assembling the emitted .ascii text of a string literal reproduces exactly its bytes (terminator included).",
  "every byte string as literal contents",
  "all 256 byte values in all positions, including buffer-size arithmetic at the last positions",
  ["src/literal/sliteral.c: sliteral_display_string, sliteral_set_zero_padding_copy", "src/lexer/reader.c: read_escape_sequence", "src/x64/data.c: x64data_tostring"])
p("No source text is silently dropped",
  "If lexing succeeds, the whole file was consumed: the tokens' spellings together with the white space between them account for every byte of the source.",
  "every source text",
  "requires reasoning about every byte value at every position (for instance bytes equal to the end-of-file sentinel)",
  ["src/lexer/lexer.c: lexer_read_ctokens", "src/lexer/util.c: lexer_get_content_top", "src/freader/freader.c"])
# parser
p("Parsing is total",
  "On every token list ending in end-of-file the parser terminates with a tree or an error and never reads past the end-of-file token.",
  "every finite token list ending in the end-of-file token",
  "recursion with speculative backtracking over all inputs; a read past the end is memory-unsafe and shows up only on particular malformed inputs",
  ["src/parser/parser.c", "src/parser/expression.c", "src/parser/statement.c", "src/parser/declaration.c", "src/parser/external.c", "src/parser/util.c"])
p("Expression precedence and associativity",
  "The tree built for an expression is the one the C operator grammar assigns: writing any expression tree with the parentheses required by the C precedence table and parsing it returns the same tree.",
  "every expression tree (unbounded depth) over all supported operators",
  "there are unboundedly many operator nestings; each pair of levels and each associativity must be right in all contexts",
  ["src/parser/expression.c"])
p("Declarators are read inside-out",
  "A declarator built from pointers, arrays, functions and parentheses in any nesting denotes the type given by the C declarator rule: for every object type, declaring it with the conventional spelling and reading it back yields that type.",
  "every derived type (unbounded nesting of pointer/array/function)",
  "nesting is unbounded and the tree-grafting algorithm mutates shared sub-trees",
  ["src/parser/declaration.c: parse_declarator_common, parse_direct_declarator_common, parse_pointer", "src/resolver/declaration.c: resolve_declarator", "src/dtype/dtype.c: dtype_connect"])
p("Statements parse to their structure",
  "Every statement (nested if/else with the dangling-else rule, switch, while, for, compound, jumps) written as tokens parses back to the same tree, and a tree returned by the parser is one the grammar derives from the consumed tokens.",
  "every statement tree / every token list",
  "unbounded nesting",
  ["src/parser/statement.c"])
p("Typedef names follow block scope",
  "An identifier is treated as a type name exactly when the innermost visible declaration of it is a typedef.",
  "every sequence of declarations, scope entries and scope exits",
  "depends on the whole history of enclosing scopes",
  ["src/parser/statement.c: parse_compound_stmt, parse_for_stmt", "src/parser/declaration.c", "src/parser/expression.c: parse_primary_expr"])
# types
p("Struct layout is C layout",
  "In every struct, members appear in order, each at an offset that is a multiple of its alignment, no two members overlap, all fit inside the struct, the struct's alignment is the maximum of its members' and its size is a multiple of it.",
  "every list of members of complete object types, nested to any depth",
  "layout arithmetic over all member lists and nestings",
  ["src/dtype/struct.c: new_unnamed_dstruct", "src/dtype/dtype.c: dtype_nbytes, dtype_alignment", "src/common/util.c: min_multiple_of"])
p("Type equality is an equivalence",
  "Type equality is reflexive, symmetric and transitive, and two types that compare equal have the same size, alignment and members.",
  "every pair and triple of types",
  "laws over all pairs/triples of an unbounded family",
  ["src/dtype/dtype.c: dtype_equals", "src/dtype/struct.c: dstruct_equals", "src/dtype/function.c", "src/dtype/array.c", "src/dtype/enum.c"])
p("Assignment compatibility",
  "A value of one type may be assigned to an object of another exactly when both are arithmetic, or both are pointers to equal types, or both are pointers one of which is void*, or both are the same structure type.",
  "every pair of types",
  "a decision rule over all pairs of an unbounded family of types",
  ["src/dtype/dtype.c: dtype_isassignable, dtype_iscompatible"])
p("Usual arithmetic conversions",
  "For every pair of arithmetic operands both sides are converted to the common type that C11 6.3.1.8 prescribes, and the converted operands have equal type.",
  "every pair of arithmetic operand types",
  "a rule over all pairs of types and all operand expressions",
  ["src/resolver/conversion.c: perform_usual_arithmetic_conversion, perform_integer_promotion"])
p("Declaration specifiers are order-independent",
  "Permuting the type specifiers of a declaration does not change the declared type, and exactly the multisets listed in C11 6.7.2 (for the supported types) are accepted.",
  "every list of type-specifier keywords and every permutation of it",
  "unbounded lists and all permutations, through an in-place quicksort",
  ["src/resolver/utils.c: sort_ast_type", "src/resolver/declaration.c: resolve_type_specifier_list"])
# scoping
p("Names resolve to the innermost declaration",
  "Looking up a name returns the declaration in the innermost enclosing scope that declares it; leaving a scope restores exactly the bindings visible before it; declaring a name twice in one scope is rejected.",
  "every well-nested history of scope entries, exits and declarations, every name",
  "depends on arbitrary scope histories",
  ["src/symtab/symtab.c", "src/tagtab/tagtab.c"])
p("Stack slots never overlap",
  "All objects of automatic storage of one function occupy pairwise disjoint byte ranges inside the frame the function allocates, each at an address aligned as its type requires.",
  "every history of scope entries, exits and local definitions of any sizes",
  "an overlap appears only for particular combinations of sizes and scopes",
  ["src/symtab/symtab.c: symboltable_define_memory, symboltable_enter_scope, symboltable_exit_scope", "src/immcgen/external.c: gen_function_definition_immcode"])
# resolver
p("Accepted expressions are well typed",
  "Every expression the type checker accepts has operands and result of the types the C typing rules give (arithmetic, pointer, comparison, conditional, call and member expressions).",
  "every expression tree in every scope environment",
  "unbounded nesting of expressions and types",
  ["src/resolver/expression.c"])
p("Only modifiable lvalues are modified",
  "An accepted program never assigns to, increments or decrements anything but a modifiable lvalue (not an array, function, constant or rvalue).",
  "every accepted expression",
  "must hold at every depth of every expression",
  ["src/resolver/expression.c: resolve_assignment_expr, resolve_incdec", "src/srt/srt.c: srt_ismodifiable"])
p("Jump statements are well placed",
  "In every accepted function, break occurs only inside a loop or switch, continue only inside a loop, case/default only inside a switch, and each switch has pairwise different case values and at most one default.",
  "every accepted function body",
  "unbounded nesting of statements",
  ["src/resolver/statement.c: resolve_case_stmt, resolve_default_stmt, resolve_continue_stmt, resolve_break_stmt, resolve_switch_stmt"])
p("Compound assignment evaluates its left side once",
  "In `lhs op= rhs` the side effects of lhs happen exactly once.",
  "every left operand expression",
  "must hold for every left operand with side effects",
  ["src/resolver/expression.c: resolve_assignment_expr (compound cases)"])
p("Aggregate initialisers cover the object",
  "After an accepted initialiser every scalar element of the aggregate receives either the corresponding initialiser or zero, exactly once.",
  "every array/struct type and every nesting of initialiser lists and strings",
  "unbounded nesting of types and initialiser lists",
  ["src/resolver/declaration.c: resolve_aggregate_initializer, resolve_zero_initializer, resolve_string_initializer"])
p("sizeof agrees with storage",
  "The value of sizeof for a type or expression is the number of bytes reserved for an object of that type, and elements of an array are that far apart.",
  "every complete object type",
  "a law over all types",
  ["src/resolver/expression.c: resolve_sizeof_expr", "src/dtype/dtype.c: dtype_nbytes", "src/immcgen/declaration.c", "src/immcgen/expression.c: gen_pointer_additive_expr_immcode"])
# immcgen
p("Labels are unique and jumps resolved",
  "In the code generated for a program no two places carry the same label and every jump goes to a label defined in the same function.",
  "every accepted program",
  "label numbering is threaded through all nestings of control structures",
  ["src/immcgen/statement.c", "src/immcgen/expression.c: gen_conditional_expr_immcode, gen_logical_or_expr_immcode", "src/immcgen/external.c"])
p("Expression code computes the C value",
  "Running the intermediate code generated for an integer expression leaves the value C assigns to the expression in its result register, performs exactly its side effects, in any memory state.",
  "every integer expression tree (arithmetic, bitwise, comparison, logical with short circuit, conditional, assignment, increment, casts) and every memory state in which its evaluation is defined",
  "compiler correctness is a statement about all programs and all data",
  ["src/immcgen/expression.c", "src/immcgen/util.c"])
p("Statement code follows C control flow",
  "Running the intermediate code of a statement has the same effect as the statement: the right branch of if, loops iterate exactly while the condition holds, break/continue/return leave the right construct, switch selects the right case and falls through.",
  "every statement tree and every memory state",
  "compiler correctness over all programs, all iteration counts",
  ["src/immcgen/statement.c", "src/immcgen/util.c: append_child_jmp_cond_immcode"])
p("Static data has the declared size and contents",
  "The data directives emitted for a global object occupy exactly sizeof bytes and contain the initial values at the members' offsets.",
  "every global object type and every constant initialiser",
  "all types and nestings",
  ["src/immcgen/declaration.c"])
p("Local initialisers hit the right bytes",
  "The stores generated for a local initialiser write each scalar at its offset in the object and nothing outside the object.",
  "every local aggregate type and initialiser",
  "offset arithmetic over all types and nestings",
  ["src/immcgen/declaration.c: gen_local_scalar_initializer_immcode, gen_local_struct_initializer_immcode", "src/x64gen/datainst.c: gen_str_x64code"])
p("Calls pass every argument",
  "A call evaluates every argument, places argument i where the calling convention expects it, balances the stack adjustments before and after the call, and the callee reads the same values.",
  "every argument count and every argument expression list, nested calls included",
  "any number of arguments (register and stack passing) and any nesting",
  ["src/immcgen/expression.c: gen_call_expr_immcode", "src/x64gen/ctrlinst.c: gen_prep_x64code, gen_call_x64code, gen_clean_x64code", "src/x64gen/datainst.c: gen_starg_x64code, gen_ldarg_x64code"])
# regalloc
p("Liveness is sound",
  "If a virtual register is read later on some control-flow path before being overwritten, the computed live ranges contain every point in between on that path.",
  "every intermediate function and every control-flow path",
  "paths are unbounded (loops)",
  ["src/regalloc/regalloc.c: create_basic_blocks, connect_basic_blocks, analyze_flow, analyze_liveness", "src/liveseq/liveseq.c"])
p("Allocated registers do not clash",
  "Two virtual registers that are live at the same point never share a machine register, so running the allocated code gives the same result as the code before allocation.",
  "every intermediate function whose pressure does not exceed the number of registers",
  "all interference patterns",
  ["src/regalloc/regalloc.c: determine_allocation, gen_allocated_immcs"])
p("Flow analysis terminates",
  "The iterative data-flow analysis reaches its fixed point on every control-flow graph.",
  "every control-flow graph, including unreachable and irreducible ones",
  "termination over all graphs",
  ["src/regalloc/regalloc.c: analyze_flow"])
p("High register pressure is handled",
  "A program whose expressions need more registers than the machine has is compiled correctly or rejected with an error.",
  "every accepted program",
  "requires an argument over all programs about maximal pressure",
  ["src/regalloc/regalloc.c: determine_allocation, gen_allocated_immcs, update_liveseqs"])
# x64gen
p("Arithmetic and logic instructions are correct",
  "The machine code selected for add, sub, mul, div, mod, neg, and, or, xor, not leaves in the destination register the value of the operation on the operands for every operand width and signedness, and changes no other live register.",
  "every operand value, width, signedness and register assignment",
  "2^64 operand values times all register assignments (aliasing between destination, sources and the implicit rax/rdx)",
  ["src/x64gen/arithinst.c", "src/x64gen/logicinst.c", "src/x64gen/util.c: append_mov_code"])
p("Comparison instructions are correct",
  "The machine code for ==, !=, <, >, <=, >= leaves 1 or 0 in the destination register according to the signed or unsigned comparison of the operands.",
  "every operand value, width, signedness and register assignment",
  "all values and all register assignments",
  ["src/x64gen/bitinst.c: gen_setcmp_common_x64code"])
p("Conditional jumps are correct",
  "The machine code of a conditional jump branches exactly when the signed or unsigned comparison of its operands holds.",
  "every operand value, width, signedness and register assignment",
  "all values and all register assignments",
  ["src/x64gen/ctrlinst.c: gen_jcmp_common_x64code"])
p("Shifts are correct",
  "The machine code of a shift computes the C shift: arithmetic right shift for signed, logical for unsigned operands, for constant and variable counts.",
  "every operand value, count, width, signedness and register assignment",
  "all values and register assignments",
  ["src/x64gen/shrotinst.c", "src/immcgen/expression.c: gen_shift_expr_immcode"])
p("Loads, stores and conversions preserve values",
  "Converting between integer widths sign-extends signed and zero-extends unsigned values and truncates modulo 2^n; a store followed by a load of the same location and width returns the value and disturbs no other byte.",
  "every value, width pair, signedness and register assignment",
  "all values and register assignments",
  ["src/x64gen/datainst.c: gen_load_x64code, gen_store_x64code", "src/x64gen/util.c: append_mov_code, append_mov_code_signed, append_mov_code_unsigned"])
p("Values survive calls",
  "Every value that is live across a function call is unchanged after it, and callee-saved registers are restored on return.",
  "every set of live registers, every argument count",
  "all live-register sets",
  ["src/x64gen/ctrlinst.c: gen_call_x64code", "src/x64gen/x64gen.c: gen_function_x64code"])
p("Stack discipline",
  "Within every generated function the stack pointer is 16-byte aligned at every call, and on return has its value at entry.",
  "every generated function, every frame size, argument count and evacuation count",
  "arithmetic over all frame sizes and nestings",
  ["src/x64gen/ctrlinst.c: gen_enter_x64code, gen_leave_x64code, gen_prep_x64code, gen_clean_x64code", "src/x64gen/x64gen.c: gen_function_x64code"])
p("Assembly text is unambiguous and in bounds",
  "The printed assembly of an instruction, label or datum determines it (distinct operands print differently, register names match their width), and printing never writes outside its buffer.",
  "every instruction, label name and literal",
  "all operands and name lengths",
  ["src/x64/inst.c: x64inst_tostring", "src/x64/ope.c: x64ope_tostring", "src/x64/label.c", "src/x64/register.c: reg_name"])
p("Failed compilations leave no output",
  "The driver exits with status 1 and writes no output file when the file name is not *.c or any stage reports an error, and otherwise writes the assembly to the same name with extension .s.",
  "every argument vector, file content and stage outcome",
  "all combinations of stage failures and names",
  ["src/main.c: main"])
p("End-to-end: accepted programs are compiled faithfully",
  "Running the assembly produced for an accepted program gives the result C semantics gives.",
  "every accepted program free of undefined behaviour",
  "compiler correctness over all programs",
  ["src/main.c", "src/immcgen", "src/regalloc", "src/x64gen"])
open('/verif/properties.jsonl','w').write(''.join(json.dumps(x)+'\n' for x in P))
print(len(P))
