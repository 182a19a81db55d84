{
 "claims": [
  {
   "property": "C01",
   "status": "proved",
   "theorems": [
    "C01_vector_refines_list"
   ],
   "note": "Every history on two vectors (extend and copy included); pop of an empty vector is the only undefined call."
  },
  {
   "property": "C02",
   "status": "proved",
   "theorems": [
    "C02_map_latest_binding",
    "C02_hashes",
    "C02_negative_hash_refuted"
   ],
   "note": "All add-only histories on keys with non-negative hash (all ints, all 7-bit strings). Keys with high-bit characters are refuted."
  },
  {
   "property": "C03",
   "status": "partial",
   "theorems": [
    "C03_map_tidy_partial",
    "C03_map_any_history_partial",
    "C03_map_remove_refuted",
    "C03_map_stale_value_refuted"
   ],
   "note": "False in general (re-adding a key in front of a tombstone duplicates it). Proved for histories that never re-add a present key after a removal, and a weaker guarantee for all histories."
  },
  {
   "property": "C04",
   "status": "partial",
   "theorems": [
    "C04_iteration_partial",
    "C04_iteration_refuted"
   ],
   "note": "False in general; proved for the same histories as C03."
  },
  {
   "property": "C05",
   "status": "partial",
   "theorems": [
    "C05_set_operations",
    "C05_set_remove_refuted"
   ],
   "note": "Everything except 'a removed item is absent', which is refuted."
  },
  {
   "property": "C06",
   "status": "partial",
   "theorems": [
    "C06_terminates_partial",
    "C06_bound",
    "C06_one_eof",
    "C06_defined",
    "C06_unterminated_refuted",
    "C06_hex_escape_refuted",
    "C06_high_bit_refuted"
   ],
   "note": "False for unterminated literals at the end of the file (read forever). Proved for every text ending in a newline; any other text either ends within length+2 steps or never. Definedness for 7-bit texts without huge \\x escapes."
  },
  {
   "property": "C07",
   "status": "proved",
   "theorems": [
    "C07_round_trip",
    "C07_longest_match"
   ],
   "note": "Any sequence of well-spelled 7-bit tokens, any white space; maximal munch without separators."
  },
  {
   "property": "C08",
   "status": "partial",
   "theorems": [
    "C08_value_partial",
    "C08_type_refuted",
    "C08_bad_octal_refuted"
   ],
   "note": "Value proved for every digit string, base and suffix; the type is taken from the suffix alone (refuted), and 09 is accepted (refuted)."
  },
  {
   "property": "C09",
   "status": "partial",
   "theorems": [
    "C09_ascii_partial",
    "C09_source_round_trip",
    "C09_escapes",
    "C09_overflow_refuted",
    "C09_high_bit_refuted",
    "C09_bell_refuted"
   ],
   "note": "Proved for 7-bit bytes (7 and 11 excluded on the assembler side); high-bit bytes overflow the buffer or are all printed as \\377 (refuted)."
  },
  {
   "property": "C10",
   "status": "partial",
   "theorems": [
    "C10_all_consumed_partial",
    "C10_byte255_refuted",
    "C10_nul_refuted"
   ],
   "note": "Proved for texts without bytes 0 and 255; refuted for both."
  },
  {
   "property": "C11",
   "status": "proved",
   "theorems": [
    "C11_parser_total",
    "C11_parser_total_tokens"
   ],
   "note": "Every lexed source, and every token list ending in EOF."
  },
  {
   "property": "C12",
   "status": "partial",
   "theorems": [
    "C12_expression_read_back_partial",
    "C12_function_parameter_refuted"
   ],
   "note": "Every expression tree written with the parentheses its precedence requires is parsed back to the same tree, after any typedefs. Not covered, and refuted: type names with an unnamed parameter of function type `int (T)` for a typedef name T. Type names are built from keywords, tags and typedef names, not from structure definitions."
  },
  {
   "property": "C13",
   "status": "partial",
   "theorems": [
    "C13_declaration_read_back_partial",
    "C13_function_parameter_refuted"
   ],
   "note": "Every nesting of pointers, arrays, functions and parentheses over the arithmetic types and void, parsed and resolved to the type written. Missing: structure, enumeration and typedef base types; refuted for `int (T)` parameters with a typedef name T."
  },
  {
   "property": "C14",
   "status": "partial",
   "theorems": [
    "C14_phrases_accepted",
    "C14_parser_is_grammar_partial",
    "C14_unambiguous",
    "C14_typedef_parameter_refuted"
   ],
   "note": "The parser accepts exactly the programs of an independent grammar of the supported language (expressions, declarations, statements, definitions), with its trees; the grammar is unambiguous. Not covered, and refuted: `typedef` between parentheses."
  },
  {
   "property": "C15",
   "status": "partial",
   "theorems": [
    "C15_typedef_names_partial",
    "C15_hidden_typedef_refuted",
    "C15_hidden_by_constant_refuted",
    "C15_typedef_in_for_refuted"
   ],
   "note": "In every accepted program identifiers are used as types exactly where a typedef of them is visible. Refuted where another declaration hides the typedef and for typedefs in a for statement."
  },
  {
   "property": "C16",
   "status": "partial",
   "theorems": [
    "C16_layout_partial",
    "C16_layout_meaning",
    "C16_layout_unique",
    "C16_sizes",
    "C16_alignments",
    "C16_complete",
    "C16_zero_alignment_refuted"
   ],
   "note": "Layout of any list of complete member types, nested to any depth, is the C (System V) layout, unique. Refuted: an array of functions (through a typedef) is accepted as a member and divides by zero. Sizes are unbounded integers, not C ints."
  },
  {
   "property": "C17",
   "status": "partial",
   "theorems": [
    "C17_same_type",
    "C17_reflexive",
    "C17_symmetric",
    "C17_transitive",
    "C17_layout_partial",
    "C17_members",
    "C17_tags_refuted",
    "C17_tags_program_refuted"
   ],
   "note": "Equality is an equivalence; equal types have equal layout if tags mean the same struct in both. Refuted: struct types are compared by tag name only, across scopes."
  },
  {
   "property": "C18",
   "status": "partial",
   "theorems": [
    "C18_assignable_partial",
    "C18_struct_rejected",
    "C18_struct_refuted"
   ],
   "note": "Exactly the C rule except for structures, which are never assignable (refuted)."
  },
  {
   "property": "C19",
   "status": "proved",
   "theorems": [
    "C19_usual_conversions",
    "C19_operands"
   ],
   "note": "All pairs of the seven integer types; enumerations have type int in this compiler."
  },
  {
   "property": "C20",
   "status": "proved",
   "theorems": [
    "C20_accepted",
    "C20_rejected",
    "C20_alone",
    "C20_order"
   ],
   "note": "All lists of specifiers; enumerated for length up to 4, longer lists are rejected."
  },
  {
   "property": "C21",
   "status": "proved",
   "theorems": [
    "C21_lookup",
    "C21_once",
    "C21_redeclared",
    "C21_scope_left",
    "C21_visible_restored",
    "C21_tags",
    "C21_tags_once"
   ],
   "note": "Histories of operations of the symbol and tag tables."
  },
  {
   "property": "C22",
   "status": "partial",
   "theorems": [
    "C22_slots_partial",
    "C22_alignment_refuted"
   ],
   "note": "Disjoint and inside the frame for every history; alignment refuted for 8-byte types."
  },
  {
   "property": "C23",
   "status": "partial",
   "theorems": [
    "C23_rules_partial",
    "C23_nodes_partial",
    "C23_shift_refuted",
    "C23_difference_refuted",
    "C23_sizeof_refuted"
   ],
   "note": "Every accepted program is typed by the rules of ElabSpec (a relation written from C11), and every node of its typed tree has operands of fitting types. Refuted where the rules of the compiler are not those of C: type of shifts, pointer differences and sizeof."
  },
  {
   "property": "C24",
   "status": "partial",
   "theorems": [
    "C24_modifiable_partial",
    "C24_call_member_refuted"
   ],
   "note": "Every assignment, increment and decrement of an accepted program is on a name, an indirection or a member that is no array or function. Refuted for a member of the result of a call, which is no lvalue in C."
  },
  {
   "property": "C25",
   "status": "partial",
   "theorems": [
    "C25_jumps_partial",
    "C25_case_refuted"
   ],
   "note": "Proved for every node of every accepted program, with case values as written. Refuted after the conversion to the type of the controlling expression: case 1 and case 4294967297 are both accepted for an int."
  },
  {
   "property": "C26",
   "status": "partial",
   "theorems": [
    "C26_effects_partial",
    "C26_resolver_partial",
    "C26_returned_partial",
    "C26_compound_refuted"
   ],
   "note": "Effects of source and typed tree are the same in number if the left sides of compound assignments have none: of the typing rules (effects), of every expression the resolver accepts in a well-formed state (resolver), and of returned values of accepted programs (returned). Refuted in general: a[i++] += 5 increments i twice."
  },
  {
   "property": "C27",
   "status": "partial",
   "theorems": [
    "C27_covers_partial",
    "C27_order_partial",
    "C27_program_partial",
    "C27_string_reused_refuted",
    "C27_tag_refuted",
    "C27_long_zero_refuted",
    "C27_string_rows_refuted"
   ],
   "note": "Every scalar gets one value for every type and nesting; which one it gets is proved for lists of expressions without inner braces. C27_covers and C27_order are about the typing rules, C27_program about every initialised variable of an accepted program. Refuted: a string that is used twice, a struct redefined inside its initialiser, zero elements of other types than int, char and pointers (compiler stops), arrays of strings (rejected)."
  },
  {
   "property": "C28",
   "status": "partial",
   "theorems": [
    "C28_sizeof_partial",
    "C28_resolver_partial",
    "C28_array_bound_refuted"
   ],
   "note": "sizeof gives the size of the type (C28_sizeof for the typing rules, C28_resolver for the resolver in every well-formed state); slots have this size (C22_slots_partial). Refuted for array bounds over 32 bits. The distance of array elements is still to be shown on the generated code."
  },
  {
   "property": "C29",
   "status": "proved",
   "theorems": [
    "C29_labels",
    "C29_assembly_labels"
   ],
   "note": "For every source text the lexer, parser and resolver accept and for which code is generated: all labels of the intermediate code and of the assembly code are distinct and every jump goes to a label between the same two function or variable labels (LabelSpec, AsmLabelSpec). Proved by induction over the code generator with the resolver's placement of break/continue/return, by distinctness of the names declared at file scope, and by the shape of names that come from the lexer."
  },
  {
   "property": "C30",
   "status": "partial",
   "theorems": [
    "C30_expression_code_partial",
    "C30_expression_code_refuted"
   ],
   "note": "For every typed expression the generator accepts and [regular] (GenSpec) admits, at any place of any code with distinct labels: its intermediate code reaches its end with the side effects and the value the C semantics (CSem.eval) gives, leaves live registers, argument slots and return value alone. Function calls are a parameter of both semantics. Missing: casts of casts that lose bits, pointers computed by ?: or by assignment through a pointer, char indices, shift counts changed by a cast - the generated code is wrong there (refuted theorem and examples)."
  },
  {
   "property": "C31",
   "status": "partial",
   "theorems": [
    "C31_statement_code_partial",
    "C31_statement_code_refuted"
   ],
   "note": "Proved against an independent semantics of C statements (CSem) for every statement in the class regular_stmt (all statement kinds; expressions and initialisers as for C30 and C33; case constants no wider than the controlling expression). Refuted outside it: a case constant wider than the controlling expression is not converted to its type. Machine code is covered by C39-C43 instruction by instruction."
  },
  {
   "property": "C32",
   "status": "partial",
   "theorems": [
    "C32_static_data_partial",
    "C32_static_data_refuted"
   ],
   "note": "Proved for every initialiser made of literals, casts of them, strings and nested lists (regular_static): the data has the size of the object and every scalar and character is at its offset. Refuted for other constant expressions: the generator fails on int x = -1."
  },
  {
   "property": "C33",
   "status": "partial",
   "theorems": [
    "C33_initialiser_code_partial",
    "C33_initialiser_stores_partial",
    "C33_initialiser_code_refuted"
   ],
   "note": "Proved for the initialisers in regular_init: the generated code does what the initialisation does in C; with constant scalars every scalar is at its offset and no byte outside the object changes. Refuted outside it: elements of an array of structs with trailing padding are stored at wrong offsets."
  },
  {
   "property": "C34",
   "status": "partial",
   "theorems": [
    "C34_arguments_passed_partial",
    "C34_arguments_entered_partial",
    "C34_parameters_read_partial"
   ],
   "note": "Pushed arguments reach the registers and stack slots of the calling convention at the machine call, are still there after the callee's prologue, and end in the slots of the parameters. Assumed: code between two pushes keeps the stack. Evaluation of the arguments is part of C30 and C48."
  },
  {
   "property": "C35",
   "status": "partial",
   "theorems": [
    "C35_liveness_partial",
    "C35_compiled_partial",
    "C35_liveness_refuted"
   ],
   "note": "Every live point of every path lies in the computed range: for all functions the generator makes from an accepted program in which dereferenced pointers are computed last (the exceptions are conditionals, unary plus and assignments used as pointers), and for any code in which the register is written earlier in the text and loops which carry registers are closed by jumps the analysis knows. Refuted for JLT/JLEQ, which immc_isjumpinst leaves out."
  },
  {
   "property": "C36",
   "status": "partial",
   "theorems": [
    "C36_no_clash_partial",
    "C36_same_result_partial",
    "C36_compiled_no_clash_partial",
    "C36_compiled_same_result_partial",
    "C36_compiled_orderly",
    "C36_check",
    "C36_same_result_refuted"
   ],
   "note": "Registers live together never share, and allocated code gives the same result, for orderly code. Code generated from an accepted program whose dereferenced pointers are computed last is proved orderly; for other code a verified check decides it. Refuted for loops closed by JLT."
  },
  {
   "property": "C37",
   "status": "partial",
   "theorems": [
    "C37_forward_partial",
    "C37_loops_partial",
    "C37_fixed_point_partial",
    "C37_terminates_refuted"
   ],
   "note": "Ends in two rounds on graphs without back edges and on loops that carry no register; a result is always a fixed point. Refuted in general: a block for which the sets swing for ever, because of the removal bug of Set."
  },
  {
   "property": "C38",
   "status": "partial",
   "theorems": [
    "C38_low_pressure_partial",
    "C38_machine_registers_partial",
    "C38_pressure_refuted",
    "C38_division_refuted"
   ],
   "note": "Low pressure is allocated, and all registers of allocated code are machine registers. Refuted: ten nested sums make the allocator read out of bounds, eight with a division are miscompiled."
  },
  {
   "property": "C39",
   "status": "partial",
   "theorems": [
    "C39_binary_partial",
    "C39_division_partial",
    "C39_unary_partial",
    "C39_literal_divisor_refuted",
    "C39_unsigned_widening_refuted",
    "C39_product_width_refuted",
    "C39_divide_dx_refuted"
   ],
   "note": "Value and frame of every operation for all operand values, sizes and register assignments, except where the generated code is wrong (four refutations)."
  },
  {
   "property": "C40",
   "status": "partial",
   "theorems": [
    "C40_compare_partial",
    "C40_destination_refuted"
   ],
   "note": "Proved when the destination is the register of the first source; refuted otherwise."
  },
  {
   "property": "C41",
   "status": "partial",
   "theorems": [
    "C41_jump_partial",
    "C41_goto",
    "C41_unsigned_refuted"
   ],
   "note": "All six conditions, signed and unsigned; refuted for an unsigned 4-byte operand against an 8-byte one."
  },
  {
   "property": "C42",
   "status": "partial",
   "theorems": [
    "C42_shift_partial",
    "C42_unsigned_refuted",
    "C42_variable_count_refuted"
   ],
   "note": "Literal counts, signed operands and unsigned ones with a clear top bit; the rest is refuted."
  },
  {
   "property": "C43",
   "status": "partial",
   "theorems": [
    "C43_convert_partial",
    "C43_load",
    "C43_store",
    "C43_store_load",
    "C43_address",
    "C43_string_partial",
    "C43_string_sign_refuted",
    "C43_widen_in_place_refuted",
    "C43_widen_move_refuted",
    "C43_store_literal_refuted"
   ],
   "note": "All conversions except unsigned 4 to 8 bytes (refuted); stores and loads for every location, size and value except 8-byte literals that are not sign-extended 32-bit ones (refuted); strings of ASCII characters in local arrays (refuted for others)."
  },
  {
   "property": "C44",
   "status": "partial",
   "theorems": [
    "C44_call_partial",
    "C44_marked_partial",
    "C44_compiled_partial",
    "C44_restored_partial",
    "C44_frame_refuted",
    "C44_program_refuted"
   ],
   "note": "Live registers keep their values across a call; from the source text on, every register live after an instruction is marked as live when its code is generated, so values survive the calls of compiled functions; callee-saved registers are restored by every compiled function that does not overwrite its save area. Refuted: with two live registers the second is kept in the frame pointer, and the program goes wrong."
  },
  {
   "property": "C45",
   "status": "partial",
   "theorems": [
    "C45_returns_partial",
    "C45_aligned_partial",
    "C45_not_nested",
    "C45_aligned_refuted"
   ],
   "note": "Every compiled function returns with its stack pointer; calls are aligned if nested calls happen at an even number of pushed words, in particular without nested calls. Refuted: f(g(1), 2)."
  },
  {
   "property": "C46",
   "status": "partial",
   "theorems": [
    "C46_read_back_partial",
    "C46_unambiguous_partial",
    "C46_instruction_in_bounds",
    "C46_label_in_bounds",
    "C46_number_in_bounds",
    "C46_string_in_bounds",
    "C46_r13_refuted",
    "C46_long_name_refuted",
    "C46_long_string_refuted"
   ],
   "note": "Reading back whole files with an independent assembler reader; excluded: the word register of R13 and names or strings that overrun the fixed buffers (refuted)."
  },
  {
   "property": "C47",
   "status": "partial",
   "theorems": [
    "C47_effect",
    "C47_rejects",
    "C47_bad_arguments",
    "C47_writes",
    "C47_unwritable_refuted",
    "C47_crash_refuted"
   ],
   "note": "All argument vectors, file systems and stage outcomes; refuted when the output cannot be opened or a stage itself is undefined."
  },
  {
   "property": "C48",
   "status": "partial",
   "theorems": [
    "C48_intermediate_code_partial",
    "C48_allocated_code_partial",
    "C48_machine_code_partial",
    "C48_calls_partial",
    "C48_program_partial",
    "C48_one_run_partial",
    "C48_one_own_run_partial",
    "C48_faithful_refuted",
    "C48_division_refuted",
    "C48_shift_refuted"
   ],
   "note": "Proved from source to allocated intermediate code: for every regular program (29 of the 30 end-to-end tests are) that can be allocated, the code after register allocation ends with the exit status and output C gives, calls and static objects included. Proved from source to the machine for functions that call no others and whose instructions meet the conditions of C39-C43 (gcd, sorting, string length, ...): the machine code, entered with the arguments of a C call, returns with the value, memory and caller's registers C prescribes, for any number of steps. The same for functions with calls, given that the called functions do what C says, and by induction on the depth of calls for whole programs, recursion included (19 of the 30 end-to-end tests meet the conditions on the program, merge sort and quicksort among them; the theorem's assumptions about addresses, the stack and functions defined elsewhere are shown satisfiable for two smaller programs). The code of one function has no other run, if the calls it makes have one result only. Missing: functions that save more than one register or have instructions, nested calls or calls through pointers outside the conditions (some of which are compiled wrongly). Refuted for the whole compiler on three programs."
  }
 ]
}