{"id": "C01", "title": "Vector behaves as a list", "statement": "After any sequence of push, pop, set, insert, erase, fill and extend calls a vector's size and the element returned at every index are those of the corresponding mathematical list; set/insert/erase report failure exactly for out-of-range indices and then change nothing; at returns NULL exactly out of range; and the backing array is never written or read outside its allocated capacity.", "quantifier": "every finite sequence of vector operations on every element type (pop only on a non-empty vector, extend only with a different vector: the preconditions the code relies on)", "why_tests_cant": "growth (doubling), shrinking (halving) and the shift loops of insert/erase interact; a test fixes one interleaving, the claim is about all of them and about an allocation bound no assertion can observe", "anchors": ["src/vector/vector.c: vector_push, vector_pop, vector_set, vector_insert, vector_erase, vector_fill, vector_extend, vector_at"]}
{"id": "C02", "title": "Map: latest binding wins", "statement": "For every history of insertions into a map (overwrites included), looking a key up returns the value of the most recent insertion of an equal key and NULL when there is none; every probe loop terminates and every probed index is inside the table.", "quantifier": "every finite history of map_add calls with any keys and any non-negative hash function, then any lookup", "why_tests_cant": "correctness depends on collision patterns, probe chains wrapping around the table end and rehash order, i.e. on all key sets and all capacities", "anchors": ["src/map/map.c: map_add, map_get, map_contains, update_capacity", "src/map/cell.c"]}
{"id": "C03", "title": "Map: histories with removal", "statement": "For every history mixing insertions and removals a lookup returns the value of the latest insertion of that key not followed by its removal, and a removed key is absent.", "quantifier": "every finite history of map_add/map_remove calls and every key", "why_tests_cant": "needs a specific alternation of colliding keys, deletions and re-insertions; random tests essentially never reuse a tombstone in front of a live duplicate", "anchors": ["src/map/map.c: map_add, map_remove, map_get"]}
{"id": "C04", "title": "Map iteration visits each binding once", "statement": "Iterating over a map from map_iter_begin to map_iter_end visits exactly the keys that are present, each exactly once, with their current values.", "quantifier": "every finite history of map_add/map_remove calls", "why_tests_cant": "the iterator scans the table, so the claim depends on what every history of insertions, removals and rehashes leaves in it", "anchors": ["src/map/map.c: map_iter_begin, map_iter_next, map_iter_key, map_iter_value, map_add, map_remove"]}
{"id": "C05", "title": "Set operations are set-theoretic", "statement": "Union, intersection, difference, subset test, equality and membership on Set agree with the mathematical operations on the sets of elements added and removed.", "quantifier": "every pair of sets built by any history of set_add/set_remove calls, every element", "why_tests_cant": "equational laws over all pairs of sets; iteration order and table layout vary with history", "anchors": ["src/set/set.c: set_union, set_intersection, set_difference, set_issubset, set_equals, set_contains, set_add, set_remove"]}
{"id": "C06", "title": "Lexing terminates", "statement": "The lexer terminates on every source text, returning a token list ending in exactly one end-of-file token or an error.", "quantifier": "every finite byte string used as source text", "why_tests_cant": "non-termination cannot be observed by a finite test, and the claim is over all inputs including malformed ones", "anchors": ["src/lexer/lexer.c: lexer_read_ctokens", "src/lexer/reader.c: read_character, read_string, read_escape_sequence, read_integer"]}
{"id": "C07", "title": "Token round trip (maximal munch)", "statement": "Writing any sequence of tokens as text, separated by white space, and lexing it returns exactly that sequence followed by end of file; and punctuators are recognised by longest match.", "quantifier": "every sequence of keywords, identifiers, punctuators, integer constants in decimal/octal/hex with any suffix, character constants and string literals", "why_tests_cant": "token sequences are unbounded and adjacency effects (prefix operators, identifiers that extend keywords) are combinatorial", "anchors": ["src/lexer/reader.c", "src/lexer/util.c"]}
{"id": "C08", "title": "Integer constants: value and type", "statement": "A decimal, octal or hexadecimal constant denotes its mathematical value whenever that fits the widest type of its signedness, and its type is the first type of the C11 6.4.4.1 list that can represent the value.", "quantifier": "every digit string of every length, base and suffix", "why_tests_cant": "numeric boundary behaviour over unbounded digit strings; tests sample a handful of values", "anchors": ["src/lexer/reader.c: read_integer, read_suffix", "src/lexer/util.c: create_iliteral"]}
{"id": "C09", "title": "String and character literals denote their bytes", "statement": "Each escape sequence denotes the byte C assigns to it, and assembling the emitted .ascii text of a string literal reproduces exactly its bytes (terminator included).", "quantifier": "every byte string as literal contents", "why_tests_cant": "all 256 byte values in all positions, including buffer-size arithmetic at the last positions", "anchors": ["src/literal/sliteral.c: sliteral_display_string, sliteral_set_zero_padding_copy", "src/lexer/reader.c: read_escape_sequence", "src/x64/data.c: x64data_tostring"]}
{"id": "C10", "title": "No source text is silently dropped", "statement": "If lexing succeeds, the whole file was consumed: the tokens' spellings together with the white space between them account for every byte of the source.", "quantifier": "every source text", "why_tests_cant": "requires reasoning about every byte value at every position (for instance bytes equal to the end-of-file sentinel)", "anchors": ["src/lexer/lexer.c: lexer_read_ctokens", "src/lexer/util.c: lexer_get_content_top", "src/freader/freader.c"]}
{"id": "C11", "title": "Parsing is total", "statement": "On every token list ending in end-of-file the parser terminates with a tree or an error and never reads past the end-of-file token.", "quantifier": "every finite token list ending in the end-of-file token", "why_tests_cant": "recursion with speculative backtracking over all inputs; a read past the end is memory-unsafe and shows up only on particular malformed inputs", "anchors": ["src/parser/parser.c", "src/parser/expression.c", "src/parser/statement.c", "src/parser/declaration.c", "src/parser/external.c", "src/parser/util.c"]}
{"id": "C12", "title": "Expression precedence and associativity", "statement": "The tree built for an expression is the one the C operator grammar assigns: writing any expression tree with the parentheses required by the C precedence table and parsing it returns the same tree.", "quantifier": "every expression tree (unbounded depth) over all supported operators", "why_tests_cant": "there are unboundedly many operator nestings; each pair of levels and each associativity must be right in all contexts", "anchors": ["src/parser/expression.c"]}
{"id": "C13", "title": "Declarators are read inside-out", "statement": "A declarator built from pointers, arrays, functions and parentheses in any nesting denotes the type given by the C declarator rule: for every object type, declaring it with the conventional spelling and reading it back yields that type.", "quantifier": "every derived type (unbounded nesting of pointer/array/function)", "why_tests_cant": "nesting is unbounded and the tree-grafting algorithm mutates shared sub-trees", "anchors": ["src/parser/declaration.c: parse_declarator_common, parse_direct_declarator_common, parse_pointer", "src/resolver/declaration.c: resolve_declarator", "src/dtype/dtype.c: dtype_connect"]}
{"id": "C14", "title": "Statements parse to their structure", "statement": "Every statement (nested if/else with the dangling-else rule, switch, while, for, compound, jumps) written as tokens parses back to the same tree, and a tree returned by the parser is one the grammar derives from the consumed tokens.", "quantifier": "every statement tree / every token list", "why_tests_cant": "unbounded nesting", "anchors": ["src/parser/statement.c"]}
{"id": "C15", "title": "Typedef names follow block scope", "statement": "An identifier is treated as a type name exactly when the innermost visible declaration of it is a typedef.", "quantifier": "every sequence of declarations, scope entries and scope exits", "why_tests_cant": "depends on the whole history of enclosing scopes", "anchors": ["src/parser/statement.c: parse_compound_stmt, parse_for_stmt", "src/parser/declaration.c", "src/parser/expression.c: parse_primary_expr"]}
{"id": "C16", "title": "Struct layout is C layout", "statement": "In every struct, members appear in order, each at an offset that is a multiple of its alignment, no two members overlap, all fit inside the struct, the struct's alignment is the maximum of its members' and its size is a multiple of it.", "quantifier": "every list of members of complete object types, nested to any depth", "why_tests_cant": "layout arithmetic over all member lists and nestings", "anchors": ["src/dtype/struct.c: new_unnamed_dstruct", "src/dtype/dtype.c: dtype_nbytes, dtype_alignment", "src/common/util.c: min_multiple_of"]}
{"id": "C17", "title": "Type equality is an equivalence", "statement": "Type equality is reflexive, symmetric and transitive, and two types that compare equal have the same size, alignment and members.", "quantifier": "every pair and triple of types", "why_tests_cant": "laws over all pairs/triples of an unbounded family", "anchors": ["src/dtype/dtype.c: dtype_equals", "src/dtype/struct.c: dstruct_equals", "src/dtype/function.c", "src/dtype/array.c", "src/dtype/enum.c"]}
{"id": "C18", "title": "Assignment compatibility", "statement": "A value of one type may be assigned to an object of another exactly when both are arithmetic, or both are pointers to equal types, or both are pointers one of which is void*, or both are the same structure type.", "quantifier": "every pair of types", "why_tests_cant": "a decision rule over all pairs of an unbounded family of types", "anchors": ["src/dtype/dtype.c: dtype_isassignable, dtype_iscompatible"]}
{"id": "C19", "title": "Usual arithmetic conversions", "statement": "For every pair of arithmetic operands both sides are converted to the common type that C11 6.3.1.8 prescribes, and the converted operands have equal type.", "quantifier": "every pair of arithmetic operand types", "why_tests_cant": "a rule over all pairs of types and all operand expressions", "anchors": ["src/resolver/conversion.c: perform_usual_arithmetic_conversion, perform_integer_promotion"]}
{"id": "C20", "title": "Declaration specifiers are order-independent", "statement": "Permuting the type specifiers of a declaration does not change the declared type, and exactly the multisets listed in C11 6.7.2 (for the supported types) are accepted.", "quantifier": "every list of type-specifier keywords and every permutation of it", "why_tests_cant": "unbounded lists and all permutations, through an in-place quicksort", "anchors": ["src/resolver/utils.c: sort_ast_type", "src/resolver/declaration.c: resolve_type_specifier_list"]}
{"id": "C21", "title": "Names resolve to the innermost declaration", "statement": "Looking up a name returns the declaration in the innermost enclosing scope that declares it; leaving a scope restores exactly the bindings visible before it; declaring a name twice in one scope is rejected.", "quantifier": "every well-nested history of scope entries, exits and declarations, every name", "why_tests_cant": "depends on arbitrary scope histories", "anchors": ["src/symtab/symtab.c", "src/tagtab/tagtab.c"]}
{"id": "C22", "title": "Stack slots never overlap", "statement": "All objects of automatic storage of one function occupy pairwise disjoint byte ranges inside the frame the function allocates, each at an address aligned as its type requires.", "quantifier": "every history of scope entries, exits and local definitions of any sizes", "why_tests_cant": "an overlap appears only for particular combinations of sizes and scopes", "anchors": ["src/symtab/symtab.c: symboltable_define_memory, symboltable_enter_scope, symboltable_exit_scope", "src/immcgen/external.c: gen_function_definition_immcode"]}
{"id": "C23", "title": "Accepted expressions are well typed", "statement": "Every expression the type checker accepts has operands and result of the types the C typing rules give (arithmetic, pointer, comparison, conditional, call and member expressions).", "quantifier": "every expression tree in every scope environment", "why_tests_cant": "unbounded nesting of expressions and types", "anchors": ["src/resolver/expression.c"]}
{"id": "C24", "title": "Only modifiable lvalues are modified", "statement": "An accepted program never assigns to, increments or decrements anything but a modifiable lvalue (not an array, function, constant or rvalue).", "quantifier": "every accepted expression", "why_tests_cant": "must hold at every depth of every expression", "anchors": ["src/resolver/expression.c: resolve_assignment_expr, resolve_incdec", "src/srt/srt.c: srt_ismodifiable"]}
{"id": "C25", "title": "Jump statements are well placed", "statement": "In every accepted function, break occurs only inside a loop or switch, continue only inside a loop, case/default only inside a switch, and each switch has pairwise different case values and at most one default.", "quantifier": "every accepted function body", "why_tests_cant": "unbounded nesting of statements", "anchors": ["src/resolver/statement.c: resolve_case_stmt, resolve_default_stmt, resolve_continue_stmt, resolve_break_stmt, resolve_switch_stmt"]}
{"id": "C26", "title": "Compound assignment evaluates its left side once", "statement": "In `lhs op= rhs` the side effects of lhs happen exactly once.", "quantifier": "every left operand expression", "why_tests_cant": "must hold for every left operand with side effects", "anchors": ["src/resolver/expression.c: resolve_assignment_expr (compound cases)"]}
{"id": "C27", "title": "Aggregate initialisers cover the object", "statement": "After an accepted initialiser every scalar element of the aggregate receives either the corresponding initialiser or zero, exactly once.", "quantifier": "every array/struct type and every nesting of initialiser lists and strings", "why_tests_cant": "unbounded nesting of types and initialiser lists", "anchors": ["src/resolver/declaration.c: resolve_aggregate_initializer, resolve_zero_initializer, resolve_string_initializer"]}
{"id": "C28", "title": "sizeof agrees with storage", "statement": "The value of sizeof for a type or expression is the number of bytes reserved for an object of that type, and elements of an array are that far apart.", "quantifier": "every complete object type", "why_tests_cant": "a law over all types", "anchors": ["src/resolver/expression.c: resolve_sizeof_expr", "src/dtype/dtype.c: dtype_nbytes", "src/immcgen/declaration.c", "src/immcgen/expression.c: gen_pointer_additive_expr_immcode"]}
{"id": "C29", "title": "Labels are unique and jumps resolved", "statement": "In the code generated for a program no two places carry the same label and every jump goes to a label defined in the same function.", "quantifier": "every accepted program", "why_tests_cant": "label numbering is threaded through all nestings of control structures", "anchors": ["src/immcgen/statement.c", "src/immcgen/expression.c: gen_conditional_expr_immcode, gen_logical_or_expr_immcode", "src/immcgen/external.c"]}
{"id": "C30", "title": "Expression code computes the C value", "statement": "Running the intermediate code generated for an integer expression leaves the value C assigns to the expression in its result register, performs exactly its side effects, in any memory state.", "quantifier": "every integer expression tree (arithmetic, bitwise, comparison, logical with short circuit, conditional, assignment, increment, casts) and every memory state in which its evaluation is defined", "why_tests_cant": "compiler correctness is a statement about all programs and all data", "anchors": ["src/immcgen/expression.c", "src/immcgen/util.c"]}
{"id": "C31", "title": "Statement code follows C control flow", "statement": "Running the intermediate code of a statement has the same effect as the statement: the right branch of if, loops iterate exactly while the condition holds, break/continue/return leave the right construct, switch selects the right case and falls through.", "quantifier": "every statement tree and every memory state", "why_tests_cant": "compiler correctness over all programs, all iteration counts", "anchors": ["src/immcgen/statement.c", "src/immcgen/util.c: append_child_jmp_cond_immcode"]}
{"id": "C32", "title": "Static data has the declared size and contents", "statement": "The data directives emitted for a global object occupy exactly sizeof bytes and contain the initial values at the members' offsets.", "quantifier": "every global object type and every constant initialiser", "why_tests_cant": "all types and nestings", "anchors": ["src/immcgen/declaration.c"]}
{"id": "C33", "title": "Local initialisers hit the right bytes", "statement": "The stores generated for a local initialiser write each scalar at its offset in the object and nothing outside the object.", "quantifier": "every local aggregate type and initialiser", "why_tests_cant": "offset arithmetic over all types and nestings", "anchors": ["src/immcgen/declaration.c: gen_local_scalar_initializer_immcode, gen_local_struct_initializer_immcode", "src/x64gen/datainst.c: gen_str_x64code"]}
{"id": "C34", "title": "Calls pass every argument", "statement": "A call evaluates every argument, places argument i where the calling convention expects it, balances the stack adjustments before and after the call, and the callee reads the same values.", "quantifier": "every argument count and every argument expression list, nested calls included", "why_tests_cant": "any number of arguments (register and stack passing) and any nesting", "anchors": ["src/immcgen/expression.c: gen_call_expr_immcode", "src/x64gen/ctrlinst.c: gen_prep_x64code, gen_call_x64code, gen_clean_x64code", "src/x64gen/datainst.c: gen_starg_x64code, gen_ldarg_x64code"]}
{"id": "C35", "title": "Liveness is sound", "statement": "If a virtual register is read later on some control-flow path before being overwritten, the computed live ranges contain every point in between on that path.", "quantifier": "every intermediate function and every control-flow path", "why_tests_cant": "paths are unbounded (loops)", "anchors": ["src/regalloc/regalloc.c: create_basic_blocks, connect_basic_blocks, analyze_flow, analyze_liveness", "src/liveseq/liveseq.c"]}
{"id": "C36", "title": "Allocated registers do not clash", "statement": "Two virtual registers that are live at the same point never share a machine register, so running the allocated code gives the same result as the code before allocation.", "quantifier": "every intermediate function whose pressure does not exceed the number of registers", "why_tests_cant": "all interference patterns", "anchors": ["src/regalloc/regalloc.c: determine_allocation, gen_allocated_immcs"]}
{"id": "C37", "title": "Flow analysis terminates", "statement": "The iterative data-flow analysis reaches its fixed point on every control-flow graph.", "quantifier": "every control-flow graph, including unreachable and irreducible ones", "why_tests_cant": "termination over all graphs", "anchors": ["src/regalloc/regalloc.c: analyze_flow"]}
{"id": "C38", "title": "High register pressure is handled", "statement": "A program whose expressions need more registers than the machine has is compiled correctly or rejected with an error.", "quantifier": "every accepted program", "why_tests_cant": "requires an argument over all programs about maximal pressure", "anchors": ["src/regalloc/regalloc.c: determine_allocation, gen_allocated_immcs, update_liveseqs"]}
{"id": "C39", "title": "Arithmetic and logic instructions are correct", "statement": "The machine code selected for add, sub, mul, div, mod, neg, and, or, xor, not leaves in the destination register the value of the operation on the operands for every operand width and signedness, and changes no other live register.", "quantifier": "every operand value, width, signedness and register assignment", "why_tests_cant": "2^64 operand values times all register assignments (aliasing between destination, sources and the implicit rax/rdx)", "anchors": ["src/x64gen/arithinst.c", "src/x64gen/logicinst.c", "src/x64gen/util.c: append_mov_code"]}
{"id": "C40", "title": "Comparison instructions are correct", "statement": "The machine code for ==, !=, <, >, <=, >= leaves 1 or 0 in the destination register according to the signed or unsigned comparison of the operands.", "quantifier": "every operand value, width, signedness and register assignment", "why_tests_cant": "all values and all register assignments", "anchors": ["src/x64gen/bitinst.c: gen_setcmp_common_x64code"]}
{"id": "C41", "title": "Conditional jumps are correct", "statement": "The machine code of a conditional jump branches exactly when the signed or unsigned comparison of its operands holds.", "quantifier": "every operand value, width, signedness and register assignment", "why_tests_cant": "all values and all register assignments", "anchors": ["src/x64gen/ctrlinst.c: gen_jcmp_common_x64code"]}
{"id": "C42", "title": "Shifts are correct", "statement": "The machine code of a shift computes the C shift: arithmetic right shift for signed, logical for unsigned operands, for constant and variable counts.", "quantifier": "every operand value, count, width, signedness and register assignment", "why_tests_cant": "all values and register assignments", "anchors": ["src/x64gen/shrotinst.c", "src/immcgen/expression.c: gen_shift_expr_immcode"]}
{"id": "C43", "title": "Loads, stores and conversions preserve values", "statement": "Converting between integer widths sign-extends signed and zero-extends unsigned values and truncates modulo 2^n; a store followed by a load of the same location and width returns the value and disturbs no other byte.", "quantifier": "every value, width pair, signedness and register assignment", "why_tests_cant": "all values and register assignments", "anchors": ["src/x64gen/datainst.c: gen_load_x64code, gen_store_x64code", "src/x64gen/util.c: append_mov_code, append_mov_code_signed, append_mov_code_unsigned"]}
{"id": "C44", "title": "Values survive calls", "statement": "Every value that is live across a function call is unchanged after it, and callee-saved registers are restored on return.", "quantifier": "every set of live registers, every argument count", "why_tests_cant": "all live-register sets", "anchors": ["src/x64gen/ctrlinst.c: gen_call_x64code", "src/x64gen/x64gen.c: gen_function_x64code"]}
{"id": "C45", "title": "Stack discipline", "statement": "Within every generated function the stack pointer is 16-byte aligned at every call, and on return has its value at entry.", "quantifier": "every generated function, every frame size, argument count and evacuation count", "why_tests_cant": "arithmetic over all frame sizes and nestings", "anchors": ["src/x64gen/ctrlinst.c: gen_enter_x64code, gen_leave_x64code, gen_prep_x64code, gen_clean_x64code", "src/x64gen/x64gen.c: gen_function_x64code"]}
{"id": "C46", "title": "Assembly text is unambiguous and in bounds", "statement": "The printed assembly of an instruction, label or datum determines it (distinct operands print differently, register names match their width), and printing never writes outside its buffer.", "quantifier": "every instruction, label name and literal", "why_tests_cant": "all operands and name lengths", "anchors": ["src/x64/inst.c: x64inst_tostring", "src/x64/ope.c: x64ope_tostring", "src/x64/label.c", "src/x64/register.c: reg_name"]}
{"id": "C47", "title": "Failed compilations leave no output", "statement": "The driver exits with status 1 and writes no output file when the file name is not *.c or any stage reports an error, and otherwise writes the assembly to the same name with extension .s.", "quantifier": "every argument vector, file content and stage outcome", "why_tests_cant": "all combinations of stage failures and names", "anchors": ["src/main.c: main"]}
{"id": "C48", "title": "End-to-end: accepted programs are compiled faithfully", "statement": "Running the assembly produced for an accepted program gives the result C semantics gives.", "quantifier": "every accepted program free of undefined behaviour", "why_tests_cant": "compiler correctness over all programs", "anchors": ["src/main.c", "src/immcgen", "src/regalloc", "src/x64gen"]}
