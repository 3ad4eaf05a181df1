{
 "claims": [
  {
   "property": "C01",
   "status": "proved",
   "theorems": [
    "c01_left_to_right"
   ],
   "note": "Every expression tree over literals of all six forms, the address counter, labels, characters and escapes, the three unary signs and all binary operators, in every spelling with any white space; also gives the error recorded, and the undefined outcome, when a step has no 32-bit result."
  },
  {
   "property": "C02",
   "status": "proved",
   "theorems": [
    "c02_no_undefined_division",
    "c02_division_reported",
    "c02_only_overflow"
   ],
   "note": "No run of the whole program performs an undefined division (any source text and options); division by zero and INT_MIN/-1 are recorded as errors; an undefined outcome of an expression comes from + - * unary minus overflow or a shift count."
  },
  {
   "property": "C03",
   "status": "partial",
   "theorems": [
    "c03_literal_value",
    "c03_digits_exist",
    "c03_overflow",
    "c03_bad_digit_partial",
    "c03_bad_digit_refuted"
   ],
   "note": "Values and overflow are proved in full. A digit outside the base is proved an error except for a 0x prefix after $ or before h, which the code lets through (refuted by $0x10)."
  },
  {
   "property": "C04",
   "status": "proved",
   "theorems": [
    "c04_too_deep",
    "c04_terminates"
   ],
   "note": "c04_terminates: for every text and state, evaluation with more fuel than the text has characters never runs out of it, so every loop and recursion of the evaluator ends; c04_too_deep: 20 or more nested parentheses give error 277 whatever follows."
  },
  {
   "property": "C05",
   "status": "proved",
   "theorems": [
    "c05_operand_lists"
   ],
   "note": "Every list of well-formed operands; and on arbitrary text nothing is lost or skipped."
  },
  {
   "property": "C06",
   "status": "proved",
   "theorems": [
    "c06_round_trip",
    "c06_no_longer"
   ],
   "note": "For every text of non-NUL bytes, every state and recursion depth."
  },
  {
   "property": "C07",
   "status": "partial",
   "theorems": [
    "c07_scanners",
    "c07_define_value_partial",
    "c07_define_value_refuted"
   ],
   "note": "Scanners used for code lines, names and blanks proved; the scanner for #define values ignores character literals and escaped backslashes (refuted)."
  },
  {
   "property": "C08",
   "status": "proved",
   "theorems": [
    "c08_plain_operands",
    "c08_truncation_warning",
    "c08_index_displacement",
    "c08_bit_number",
    "c08_bit_rows"
   ],
   "note": "For every value and every output position with room: width, little-endian content, range warnings, displacement and bit-number encodings."
  },
  {
   "property": "C09",
   "status": "partial",
   "theorems": [
    "c09_relative_jump_partial",
    "c09_relative_jump_refuted"
   ],
   "note": "Proved for displacements that do not wrap around the address space; the full claim is refuted by a jump across FFFF that the processor would take but the assembler rejects."
  },
  {
   "property": "C10",
   "status": "proved",
   "theorems": [
    "c10_tables",
    "c10_counter",
    "c10_size"
   ],
   "note": "All rows of both tables (finite check), then for every operand text without '#', value, suffix, mode and state: position and counter advance alike unless a problem is recorded. -O (no output) excluded."
  },
  {
   "property": "C11",
   "status": "proved",
   "theorems": [
    "c11_instruction_decodes",
    "c11_disassembly"
   ],
   "note": "Within programs of C48 in Z80 mode. Z80Spec.v describes the encoding by the x/y/z/p/q fields of the opcode byte, independently of the table; the decoder reads the emitted bytes and gives back the mnemonic, the registers and the operand values. The table's rows are checked by computation, the operand values are general."
  },
  {
   "property": "C12",
   "status": "proved",
   "theorems": [
    "c12_row",
    "c12_operand",
    "c12_displacement",
    "c12_statement"
   ],
   "note": "Every row of both tables, characters in any case, blanks between any two items, displacement present or absent, every operand expression of complete pieces that does not begin with '(' or with a register or condition name of the same instruction. Operand field up to 254 characters (longer expressions are refused by the reader, C05)."
  },
  {
   "property": "C13",
   "status": "partial",
   "theorems": [
    "c13_definition_first_partial",
    "c15_rst_forward_refuted"
   ],
   "note": "For the programs of C48: moving a definition to the first line does not change the output. For RST operands the property is false (c15_rst_forward_refuted). Not covered: programs with macros or preprocessor lines."
  },
  {
   "property": "C14",
   "status": "partial",
   "theorems": [
    "c14_fills_reserved_partial",
    "c14_reserves",
    "c14_refuted"
   ],
   "note": "For every queue, output and state in which no define, expression or file name contains '#': the second pass changes no byte outside the reserved slots, neither the length nor the position; queueing an operand reserves exactly its slot and keeps all slots inside the output. False in general (refuted): a macro that includes source writes during the second pass. Missing: that the positions stay non-negative in whole programs."
  },
  {
   "property": "C15",
   "status": "partial",
   "theorems": [
    "c15_rst_forward_never_encoded",
    "c15_rst_forward_refuted"
   ],
   "note": "The property is false of the code: a forward-referenced RST vector is always rejected; proved for every queued RST operand, with a complete program as witness."
  },
  {
   "property": "C16",
   "status": "proved",
   "theorems": [
    "c16_sessions_stack"
   ],
   "note": "Every sequence of operations that is meaningful on a stack of sessions; refinement of the flat error list to the stack."
  },
  {
   "property": "C17",
   "status": "partial",
   "theorems": [
    "c17_status_range",
    "c17_failure_status_partial",
    "c17_no_output_partial",
    "c17_success_writes",
    "c17_refuted"
   ],
   "note": "For every source, option list and world: the status is 0..3; a reported serious problem gives status 3 and no output file when the error sessions were closed exactly once and the problem is not the exporter's own; status other than 3 writes the output file. False in general (refuted): an expression after a string in .db closes a session twice and later errors are lost."
  },
  {
   "property": "C18",
   "status": "partial",
   "theorems": [
    "c18_second_pass_partial",
    "c18_refuted",
    "c18_silent_refuted"
   ],
   "note": "A second pass that records no problem gave every queued operand a value under the final labels, for texts without '#'. False of whole programs (refuted): an unknown label is reported but the status stays 0, and in .fill, #if and = it is not even reported (c18_silent_refuted)."
  },
  {
   "property": "C19",
   "status": "proved",
   "theorems": [
    "c19_c20_c21_names"
   ],
   "note": "Every history of label definitions, defines, undefines and macro calls from the start of a run; names other than __LINE and __FILE."
  },
  {
   "property": "C20",
   "status": "proved",
   "theorems": [
    "c19_c20_c21_names"
   ],
   "note": "As C19; parameterless defines (macro parameters of the define itself are in C21's scopes)."
  },
  {
   "property": "C21",
   "status": "proved",
   "theorems": [
    "c19_c20_c21_names",
    "c21_scopes"
   ],
   "note": "Every nesting of calls."
  },
  {
   "property": "C22",
   "status": "partial",
   "theorems": [
    "c22_anonymous_labels",
    "c22_label_limit_refuted"
   ],
   "note": "Proved for up to 4096 anonymous labels; the 4097th is written past the end of the array (refuted)."
  },
  {
   "property": "C23",
   "status": "proved",
   "theorems": [
    "c23_label_file"
   ],
   "note": "Every label table."
  },
  {
   "property": "C24",
   "status": "partial",
   "theorems": [
    "c24_growable_buffer",
    "c24_overwrite",
    "c24_empty_insert_refuted",
    "c24_erase_refuted"
   ],
   "note": "Insertion, append, extraction and overwriting proved for every size; inserting an empty text returns offset 0 (refuted), and the unused erase operation is wrong (refuted)."
  },
  {
   "property": "C25",
   "status": "proved",
   "theorems": [
    "c25_ihex_lossless"
   ],
   "note": "All byte buffers up to 1 GiB (the 16-bit page number); the assembler's buffer is 8,000,000 bytes."
  },
  {
   "property": "C26",
   "status": "partial",
   "theorems": [
    "c26_ihex_checksums_partial",
    "c26_ihex_checksums_refuted"
   ],
   "note": "Proved for images up to 4 MiB; refuted above: page record checksum ignores the page high byte."
  },
  {
   "property": "C27",
   "status": "proved",
   "theorems": [
    "c27_rom_image"
   ],
   "note": "Prefix, length and padding of the ROM image for every program."
  },
  {
   "property": "C28",
   "status": "partial",
   "theorems": [
    "c28_checksum",
    "c28_variable_files_partial",
    "c28_variable_files_refuted",
    "c28_read_back",
    "c28_stored_name_partial",
    "c28_stored_name_refuted",
    "c28_hex_body"
   ],
   "note": "Checksum right in all formats. Length field right for 73P, 82P, 83P, 8XP, 8XV, 86P and 85P with names up to 8 characters; false for 86S, 85S (unless the name has 7 characters) and 85P with longer names, proved as refutations. A separate reader recovers type, name and program."
  },
  {
   "property": "C29",
   "status": "partial",
   "theorems": [
    "c29_app_file_partial",
    "c29_app_file_refuted"
   ],
   "note": "Fields, page count, file length and contents for every header and size, except programs of 16289 to 16384 bytes for which the page count and length are wrong (refutation)."
  },
  {
   "property": "C30",
   "status": "proved",
   "theorems": [
    "c30_signature_verifies",
    "c30_legendre"
   ],
   "note": "For every 16-byte hash the signature block parses and its square is the required multiple of 256*hash+1 modulo the public key; includes primality of both factors by Pocklington certificates. MD5 itself is a parameter of the model."
  },
  {
   "property": "C31",
   "status": "proved",
   "theorems": [
    "c31_format_by_extension",
    "c31_no_extension"
   ],
   "note": "Every name and extension."
  },
  {
   "property": "C32",
   "status": "partial",
   "theorems": [
    "c32_branches_partial",
    "c32_same_as_chosen_partial",
    "c32_parenthesis_refuted"
   ],
   "note": "Whole runs from the command line with any -D options: programs with #if/#ifdef/#ifndef/#elif/#else/#endif at every nesting depth, tests evaluated by the reference evaluator, arbitrary text in the branches left out; the output is that of the chosen lines and no message is printed. False as stated: a line that is left out and starts with a closing parenthesis makes the assembler loop forever (c32_parenthesis_refuted), so such lines are excluded. Chosen lines are those of the reference assembler language (no macros, includes or defines inside)."
  },
  {
   "property": "C33",
   "status": "partial",
   "theorems": [
    "c33_reported_partial",
    "c33_program_partial",
    "c33_left_out_refuted"
   ],
   "note": "With no conditional open the directive is reported in every state (c33_reported_partial), and a whole program of code lines ending with a stray #else or #endif exits with status 3, that one message and no output (c33_program_partial). False in general: after a conditional that was left out without an #else, a surplus #endif is accepted silently (c33_left_out_refuted)."
  },
  {
   "property": "C34",
   "status": "proved",
   "theorems": [
    "c34_search_order",
    "c34_include"
   ],
   "note": "For every list of include directories, file system, and plain file name."
  },
  {
   "property": "C35",
   "status": "proved",
   "theorems": [
    "c35_change_extension"
   ],
   "note": "All names and extensions."
  },
  {
   "property": "C36",
   "status": "proved",
   "theorems": [
    "c36_suffix",
    "c36_no_suffix",
    "c36_statement",
    "c36_width"
   ],
   "note": "All suffixes in any case after any name, both modes; every instruction statement without '#' in its text."
  },
  {
   "property": "C37",
   "status": "proved",
   "theorems": [
    "c37_data",
    "c48_whole_program"
   ],
   "note": "Within programs of C48: the bytes of a data directive stand in the file between those of the statements before and after it."
  },
  {
   "property": "C38",
   "status": "proved",
   "theorems": [
    "c38_fill_org",
    "c48_whole_program"
   ],
   "note": "Within programs of C48; .fill counts from 0 to 8000000."
  },
  {
   "property": "C39",
   "status": "proved",
   "theorems": [
    "c39_labels_measure_output"
   ],
   "note": "Within programs of C48; stated by the labels, which is how a program sees the address counter."
  },
  {
   "property": "C40",
   "status": "partial",
   "theorems": [
    "c40_refuted"
   ],
   "note": "False of the code: .seek to the end of the buffer followed by data writes outside it."
  },
  {
   "property": "C41",
   "status": "partial",
   "theorems": [
    "c41_eval",
    "c41_define_eval",
    "c41_label_partial",
    "c41_concat",
    "c41_label_refuted",
    "c41_redefined_eval_refuted",
    "c41_least_refuted"
   ],
   "note": "Text written for a value by eval (hexadecimal) and concat (decimal) evaluates to that value in every state, for all 2^32 values (the least one only when signed negation wraps: c41_least_refuted); #define of a new name with eval(expression) stores such a text; a label in expanded text is right for values of at most nine characters. False as written: c41_label_refuted (a label value of ten digits is cut to nine when a define is redefined), c41_redefined_eval_refuted (the hex digits written by eval are replaced by a label of that spelling when the define had a value). Missing: whole expressions in expanded text with negative labels."
  },
  {
   "property": "C42",
   "status": "partial",
   "theorems": [
    "c42_file_contents_partial",
    "c42_file_contents_refuted"
   ],
   "note": "Refuted for the empty file and the two proper prefixes of a byte order mark; proved otherwise."
  },
  {
   "property": "C43",
   "status": "partial",
   "theorems": [
    "c43_bytes",
    "c43_labels",
    "c43_settings",
    "c43_size",
    "c43_sixteen_bits_refuted",
    "c43_thirty_two_bits_refuted",
    "c43_between_refuted",
    "c43_many_shades_refuted"
   ],
   "note": "c43_bytes (no label before the picture) and c43_labels (label before it) give all bytes of every picture of depth 1, 2, 4, 8 or 24 for 2 to 64 shades (powers of two), with mask, strips and padding, including the double-precision luminance; c43_settings gives the settings for symbols that are undefined or defined as numbers; c43_size the number of bytes. False of the code: 16 and 32 bits per pixel are decoded wrongly, a colour exactly between two shades is rounded by floating-point noise, 128 or more shades of white are undefined behaviour. Not covered: the header of __BM_HDR, image maps of __BM_MAP, __BM_INV_RGB."
  },
  {
   "property": "C44",
   "status": "partial",
   "theorems": [
    "c44_declaration",
    "c44_others",
    "c44_other_forms",
    "c44_statement",
    "c44_bytes",
    "c44_size",
    "c44_two_operands_refuted",
    "c44_long_refuted"
   ],
   "note": "c44_declaration gives the row added for every well-formed declaration line of one to four opcode bytes; c44_others and c44_other_forms that other statements are matched as before; c44_statement that a statement of the form selects the row; c44_bytes and c44_size what it emits, for forms with no operand or one. False of the code for two operands (no declared size can agree with the bytes) and for five to eight opcode bytes (undefined shift)."
  },
  {
   "property": "C45",
   "status": "proved",
   "theorems": [
    "c45_upper_case"
   ],
   "note": "All byte strings."
  },
  {
   "property": "C46",
   "status": "partial",
   "theorems": [
    "c46_output_beside_source_partial",
    "c46_output_beside_source_refuted"
   ],
   "note": "Refuted for a name without extension in a directory with a dot."
  },
  {
   "property": "C47",
   "status": "partial",
   "theorems": [
    "c47_evaluation_partial",
    "c47_refuted"
   ],
   "note": "For all states, expressions and recursion depths without '#' in texts. False with '#': evaluating a macro can include source and emit code."
  },
  {
   "property": "C48",
   "status": "proved",
   "theorems": [
    "c48_whole_program"
   ],
   "note": "Programs of AsmSpec.v: no preprocessor lines, macros or anonymous labels; values of symbols and addresses below 10^9; operand texts up to 254 characters; output up to 8000000 bytes; counts and origins known where used; RST operands known where used; output name without extension or .bin, .rom, .hex."
  },
  {
   "property": "C49",
   "status": "proved",
   "theorems": [
    "c49_every_instruction"
   ],
   "note": "About the Z80 table against the decoder of Z80Spec.v."
  },
  {
   "property": "C50",
   "status": "proved",
   "theorems": [
    "c50_defined_names"
   ],
   "note": "For all expressions whose names are labels, unknown, symbols (without parameters) defined as one-line expressions without quotes, or parameters of macros being expanded bound to such expressions, nested. Symbols called with arguments are not covered."
  },
  {
   "property": "C51",
   "status": "partial",
   "theorems": [
    "c51_macros_partial"
   ],
   "note": "Definitions of macros and constants come first in the file; a body begins with a line without a label or with a conditional; arguments are expressions known at the call, of values other than INT_MIN, and name no earlier parameter of the same macro (C52); expressions in a body that wait for the second pass name no parameters. Definitions inside programs, .addinstr and calls of macros inside expressions are not covered."
  },
  {
   "property": "C52",
   "status": "partial",
   "theorems": [
    "c52_capture_refuted",
    "c51_macros_partial"
   ],
   "note": "False in general: m(1, a) with #macro m(a, b) gives b the value 1, whatever a is at the call (c52_capture_refuted: the file has bytes 1 1 where the reference has 1 5). When no argument names an earlier parameter of the macro, c51_macros_partial gives every argument its value at the call."
  },
  {
   "property": "C53",
   "status": "partial",
   "theorems": [
    "c53_files_partial",
    "c53_in_place_partial"
   ],
   "note": "c53_files_partial: whole runs of the program from the command line, for all programs made of labels, instructions, data directives, conditionals, macro calls, includes and imports, with -I and -D. c53_in_place_partial: replacing an include line of the main file by the text of the file. Files that define macros or constants in front of the program: C68. Missing: files that define macros or symbols between lines of code, pictures, .addinstr, and the replacement of includes inside macro bodies and inside other includes; files included must not be empty of lines that the reference syntax does not have."
  },
  {
   "property": "C54",
   "status": "partial",
   "theorems": [
    "c54_import",
    "c54_missing_refuted"
   ],
   "note": "c54_import: for all states. The last sentence is false: the name of a file that is not found is passed on as a null pointer, so the assembler crashes instead of reporting an error (c54_missing_refuted, for all states; c54_missing_ex is the whole program)."
  },
  {
   "property": "C55",
   "status": "partial",
   "theorems": [
    "c55_same_values_partial",
    "c53_files_partial"
   ],
   "note": "Whole runs of the program. Definitions come first in the file; constants use no $ and no labels, and take at most five levels of nesting together with the constants in them; an expression that waits for the second pass uses no constants (C56). Expressions in programs with constants or parameters nest at most 14 deep."
  },
  {
   "property": "C56",
   "status": "partial",
   "theorems": [
    "c56_waiting_refuted"
   ],
   "note": "False: with #define five 2+3 the line .db 2*five+lab gives 2*5+lab when lab is defined above and 2*2+3+lab when it is defined below (c56_waiting_refuted)."
  },
  {
   "property": "C57",
   "status": "partial",
   "theorems": [
    "c57_seek",
    "c57_reported_refuted"
   ],
   "note": "c57_seek is the statement for the directive; c57_reported_refuted shows that the report does not save the run: the position is moved all the same, and writing the output file (or the next byte) is then outside of the buffer."
  },
  {
   "property": "C58",
   "status": "partial",
   "theorems": [
    "c58_seek_back_refuted"
   ],
   "note": "False of the code: everything behind the last byte written is cut off (.db 1,2,3,4,5 / .seek 1 / .db 9 gives the file 1, 9)."
  },
  {
   "property": "C59",
   "status": "proved",
   "theorems": [
    "c59_option",
    "c59_label_refuted"
   ],
   "note": "For names that are not labels at that point. c59_label_refuted: where such a name is a label, the code follows a null pointer."
  },
  {
   "property": "C60",
   "status": "proved",
   "theorems": [
    "c60_assume"
   ],
   "note": "For expressions with readable text over known labels."
  },
  {
   "property": "C61",
   "status": "proved",
   "theorems": [
    "c61_nothing",
    "c61_end_refuted",
    "c61_error",
    "c61_fatal"
   ],
   "note": "c61_end_refuted is the witness that .end does not end the program."
  },
  {
   "property": "C62",
   "status": "partial",
   "theorems": [
    "c62_echo_partial",
    "c62_later_refuted"
   ],
   "note": "c62_later_refuted: a label that comes later in the file is left out of the text echoed, without a message. Missing: defined names, and text of more than 254 characters (for which the code ends with a fatal error). .echo > file is C81."
  },
  {
   "property": "C63",
   "status": "proved",
   "theorems": [
    "c63_comment",
    "c63_open_if_refuted"
   ],
   "note": "For the loop over the lines of a file, in all states without a pending fatal error. c63_open_if_refuted: a line of the comment that begins with #if and has no #endif makes the assembler miss the #endcomment."
  },
  {
   "property": "C64",
   "status": "proved",
   "theorems": [
    "c64_undef"
   ],
   "note": "Names are compared with or without case as the option -A says."
  },
  {
   "property": "C65",
   "status": "proved",
   "theorems": [
    "c65_nothing"
   ],
   "note": "For the loop over the lines of a file."
  },
  {
   "property": "C66",
   "status": "proved",
   "theorems": [
    "c66_unknown",
    "c66_fatal"
   ],
   "note": "For #else and #endif out of place see C33."
  },
  {
   "property": "C67",
   "status": "partial",
   "theorems": [
    "c67_listing_partial",
    "c67_long_numbers_refuted"
   ],
   "note": "For the listing buffer on its own: what happens in a line (bytes written, expressions put off, .list, .nolist) is given, not taken from a run of the assembler; banners of included files and macros are not modelled. c67_long_numbers_refuted: from line 100000 on, .nolist leaves a character of its line behind."
  },
  {
   "property": "C68",
   "status": "proved",
   "theorems": [
    "c68_front",
    "c68_again"
   ],
   "note": "In front of the program only: definitions between lines of code and code in the guarded file are not covered (files with code: C53). The conditionals ask for names; #if with expressions in front of the program is not covered."
  },
  {
   "property": "C69",
   "status": "proved",
   "theorems": [
    "c69_one_line"
   ],
   "note": "Macros called as statements (with the calls of C51: arguments are expressions). A one-line macro used as a function inside an expression is not covered."
  },
  {
   "property": "C70",
   "status": "proved",
   "theorems": [
    "c70_order"
   ],
   "note": "The order of -D relative to the file names is kept in the statement: the assembler records the file current at the definition."
  },
  {
   "property": "C71",
   "status": "partial",
   "theorems": [
    "c71_functions_partial"
   ],
   "note": "Proved for rows of operands, each a term (parentheses and signs included) or a call. Not covered: a call inside parentheses, with a sign, or as an argument of a call; data and operands that are stored for the second pass; the step from this state-level statement to whole programs."
  },
  {
   "property": "C72",
   "status": "proved",
   "theorems": [
    "c72_same_output",
    "c72_letter_case",
    "c72_case_option"
   ],
   "note": "Programs of the reference assembler without macros, #define and #include (those of C48). Both programs are required to be valid, so the claim is not about texts the assembler refuses."
  },
  {
   "property": "C73",
   "status": "partial",
   "theorems": [
    "c73_directories",
    "c73_definition",
    "c73_definition_refuted",
    "c73_line",
    "c73_output_name"
   ],
   "note": "All but one clause is proved. -DNAME without an equals sign does not define NAME as 1: the program steps over the end of the argument and reads what follows it (c73_definition_refuted)."
  },
  {
   "property": "C74",
   "status": "partial",
   "theorems": [
    "c74_generated",
    "c74_clr",
    "c74_wr",
    "c74_run",
    "c74_buf",
    "c74_nothing",
    "c74_number_refuted",
    "c74_names_refuted"
   ],
   "note": "The claims about the four words and about whole programs are proved. Refuted: buf(n) does not check its number, and clr() after it writes outside the table (c74_number_refuted); a macro whose name begins one of the words cannot be called with arguments (c74_names_refuted)."
  },
  {
   "property": "C75",
   "status": "proved",
   "theorems": [
    "c75_label_file"
   ],
   "note": "Every program and command line. Which defines are listed, and that each line shows the value, is c23_label_file."
  },
  {
   "property": "C76",
   "status": "proved",
   "theorems": [
    "c76_same_code",
    "c76_formats"
   ],
   "note": "Every program and command line; both runs must end with a status other than 3. Application files (.8xk) are related to the code by C29."
  },
  {
   "property": "C77",
   "status": "proved",
   "theorems": [
    "c77_same_for_every_build"
   ],
   "note": "Every program and command line. c77_needed shows that neither condition can be left out."
  },
  {
   "property": "C78",
   "status": "partial",
   "theorems": [
    "c78_label_file_partial",
    "c78_refuted"
   ],
   "note": "c78_refuted: a define whose expansion includes source emits that source's code again when the label file is made, before the output is written. c78_label_file_partial: every program, whatever it includes or calls, whose defines have no '#' in their contents after the two passes and that leaves no error session open. Missing: programs with '#' in a define that is not evaluated or whose evaluation emits nothing."
  },
  {
   "property": "C79",
   "status": "partial",
   "theorems": [
    "c79_instruction",
    "c79_fill",
    "c79_number",
    "c79_waiting",
    "c79_string",
    "c79_total_refuted",
    "c79_counter_output_refuted"
   ],
   "note": "Per statement, in any state in which evaluation can start, with texts free of '#'; c79_waiting is the number that waits for the second pass. c79_total_refuted: #import is not counted, so the total is not the size of the output. c79_counter_output_refuted: -C itself changes the output file, since no label is recorded and the problems are silenced. Missing: the sum over a whole program."
  },
  {
   "property": "C80",
   "status": "partial",
   "theorems": [
    "c80_times_partial",
    "c80_statement_partial",
    "c80_refuted"
   ],
   "note": "c80_refuted: ADC A,L is counted as 7 periods instead of 4, BIT b,(IX+d) and BIT b,(IY+d) as 23 instead of 20, and many undocumented instructions as 0. c80_times_partial: every other row has the times that TimingSpec.v derives from the opcode bits, or no time and an undocumented opcode. Not covered: the eZ80 table."
  },
  {
   "property": "C81",
   "status": "partial",
   "theorems": [
    "c81_echo_file",
    "c81_no_blank_refuted"
   ],
   "note": "c81_echo_file: names written as string literals, a blank or > behind the first mark, values known where they stand. c81_no_blank_refuted: .echo >log.txt writes the file og.txt, since the character behind the mark is dropped. Missing: names without quotation marks or given by a define."
  },
  {
   "property": "C82",
   "status": "proved",
   "theorems": [
    "c82_org",
    "c82_org_empty",
    "c82_fill",
    "c82_equ",
    "c82_assume",
    "c82_ends",
    "c82_equ_error"
   ],
   "note": "Over expressions whose names are labels that are known."
  },
  {
   "property": "C83",
   "status": "partial",
   "theorems": [
    "c83_test",
    "c83_instruction",
    "c83_quoted_refuted"
   ],
   "note": "c83_test: for expressions without quoted parentheses. c83_quoted_refuted: quoted parentheses are counted, so (')') is not warned about and ('(')+1 is. c83_instruction: one direction of the status (other warnings may raise it too)."
  },
  {
   "property": "C84",
   "status": "partial",
   "theorems": [
    "c84_label",
    "c84_define",
    "c84_no_define",
    "c84_flag",
    "c84_assign_partial",
    "c84_assign_any",
    "c84_assign_refuted"
   ],
   "note": "c84_assign_partial: expressions that do not use the assigned name; the warning depends on the old value and the address of the line. c84_assign_any: what any expression gives, the name itself standing for the address. c84_assign_refuted: after x = 0, x = 5 is not warned about; x = 1 twice is; x = x+1 gives the address plus one."
  },
  {
   "property": "C85",
   "status": "proved",
   "theorems": [
    "c85_name",
    "c85_file",
    "c85_defcont",
    "c85_if",
    "c85_ends"
   ],
   "note": "The word is followed by a blank or a line break; at the very end of a file without a line break the claim is not made."
  },
  {
   "property": "C86",
   "status": "partial",
   "theorems": [
    "c86_now",
    "c86_later",
    "c86_status_refuted"
   ],
   "note": "All but the last clause is proved. c86_status_refuted: the name is reported, but the status of the run stays 0."
  },
  {
   "property": "C87",
   "status": "partial",
   "theorems": [
    "c87_define",
    "c87_macro",
    "c87_accepted",
    "c87_ends",
    "c87_file_refuted"
   ],
   "note": "All but one clause is proved, for names that are not labels or macro parameters; acceptance for #define of names without a definition (for #macro see C51). c87_file_refuted: an output file with the bytes so far is written."
  },
  {
   "property": "C88",
   "status": "partial",
   "theorems": [
    "c88_assign",
    "c82_equ_error",
    "c88_silent_refuted"
   ],
   "note": "Errors are recorded in every state, and the name then stands for the address of its line (= and an unknown label after .equ) or for 0 (other errors after .equ). False: for a label that comes later, the recorded error is dropped after the first pass, and the program assembles without a message and with status 0 to a wrong value (c88_silent_refuted)."
  },
  {
   "property": "C89",
   "status": "partial",
   "theorems": [
    "c89_org",
    "c89_fill",
    "c89_fill_value",
    "c89_seek",
    "c89_dropped",
    "c89_silent_refuted"
   ],
   "note": "In every state .org, .fill and .block record the error and, if it is in the count or the address, move neither the address nor the place in the output; if it is in the value of .fill, zeros are written; .seek records it and goes to address 0. False: if unknown labels are the only errors of the first pass they are dropped at its end without a message (c89_dropped), and the program assembles with status 0 to the wrong bytes (c89_silent_refuted). For #if only the witnesses are given."
  },
  {
   "property": "C90",
   "status": "partial",
   "theorems": [
    "c90_fill",
    "c08_truncation_warning",
    "c90_ends",
    "c90_kept_refuted"
   ],
   "note": "The warning is recorded exactly for the values that are cut, and the cut bytes are written (.fill here, operands in C08). False: a pass with any recorded warning ends the run with status 3 and without a file, in every state (c90_ends), so .db 300 is not assembled (c90_kept_refuted)."
  },
  {
   "property": "C91",
   "status": "partial",
   "theorems": [
    "c04_terminates",
    "c91_include_refuted",
    "c91_define_refuted"
   ],
   "note": "Evaluating operands without macros ends (C04). False: a file that includes itself, and a define that stands for itself, are read again and again without a check, so that no number of nested calls is enough (c91_include_refuted and c91_define_refuted, for every number); the real program runs out of stack."
  },
  {
   "property": "C92",
   "status": "proved",
   "theorems": [
    "c92_word",
    "c92_directive",
    "c92_syntax",
    "c92_ends"
   ],
   "note": "Without -E; names of instructions consist of letters and digits (as in the tables); no parenthesis follows the word, since buf(, clr(, wr( and run( are built in."
  },
  {
   "property": "C93",
   "status": "proved",
   "theorems": [
    "c93_junk",
    "c93_trailing",
    "c93_ends"
   ],
   "note": "The expression has a value under C01's hypotheses; at least one blank lies between the expression and what follows."
  },
  {
   "property": "C94",
   "status": "partial",
   "theorems": [
    "c94_extra",
    "c94_missing",
    "c94_stops",
    "c94_warned_refuted"
   ],
   "note": "The values and the warning are proved. The last sentence is false: in a list of arguments a closing parenthesis too many ends the list without a message (c94_stops, c94_warned_refuted): ' .db 1),2' writes 1 alone, with status 0."
  },
  {
   "property": "C95",
   "status": "partial",
   "theorems": [
    "c17_no_output_partial",
    "c95_written",
    "c95_bit",
    "c95_goes_on",
    "c95_refuted"
   ],
   "note": "True of the errors that are recorded as serious (c17_no_output_partial). False of those printed at once: with status 2 an output file is always written (c95_written), with the bytes of bit 0 for a bit number that does not exist (c95_bit). c95_goes_on gives the recorded problems that do not stop a pass. c95_refuted has whole programs; for an anonymous label that does not exist even the status is 0."
  }
 ]
}