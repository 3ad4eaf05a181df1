{"id": "C01", "title": "Expressions evaluate strictly left to right", "statement": "An operand expression built from numeric literals, parentheses, unary + - ~ and the binary operators evaluates to the value obtained by applying the operators strictly left to right (no precedence), parentheses first, in 32-bit signed arithmetic, however much white space separates the tokens, provided no step leaves the 32-bit range and parentheses nest at most 19 deep.", "quantifier": "every expression tree, every literal value and base, every amount of white space", "why_tests_cant": "The set of expressions is infinite and every pair of operators can interact; a test samples a few shapes.", "anchors": ["parser.cpp:parse_num", "parser.cpp:parse_num_full", "parser.cpp:parse_single_num"]}
{"id": "C02", "title": "Evaluating an operand never executes an undefined division", "statement": "For every operand text, division or modulo by zero and INT_MIN / -1 are reported as errors and never performed; the only C++-undefined arithmetic an expression can trigger is overflow in + - * or unary minus, or a shift count outside 0..31.", "quantifier": "every operand text and every symbol environment", "why_tests_cant": "The guard must precede the operation on all paths through the loop, for all operand values.", "anchors": ["parser.cpp:parse_num_full"]}
{"id": "C03", "title": "Numeric literals mean their value", "statement": "Every integer 0..4294967295 written as $hex, hex with h suffix, %binary, binary with b suffix, decimal or decimal with d suffix is read back as that integer (as a 32-bit pattern); larger magnitudes are an overflow error and a digit that does not belong to the base is an error.", "quantifier": "all 2^32 values, all bases, any number of leading zeros, any following text", "why_tests_cant": "2^32 values times spellings times following characters.", "anchors": ["parser.cpp:parse_single_num", "parser.cpp:conv_generic"]}
{"id": "C04", "title": "Parenthesis nesting is bounded and evaluation always terminates", "statement": "Evaluating a macro-free operand (one that names no macro argument or define and does not call getc) always terminates, with at most one open call more than it has characters; an operand nested 20 or more parentheses deep is rejected with the recursion error, never by exhausting the stack.", "quantifier": "every operand text of any length", "why_tests_cant": "Termination and a stack bound are statements about all inputs.", "anchors": ["parser.cpp:parse_num_full", "parser.cpp:RECURSION_LIMIT"]}
{"id": "C05", "title": "Splitting a comma-separated operand list loses nothing", "statement": "Reading operands one by one from a comma-separated list yields exactly the operands written, provided each is shorter than the buffer and commas only occur inside balanced parentheses or quotes; the scanner never reads past the end of the code line.", "quantifier": "every list of operands of any length", "why_tests_cant": "Quoting, nesting and escape states interact over unbounded text.", "anchors": ["utils.cpp:read_expr_impl", "utils.cpp:next_expr"]}
{"id": "C06", "title": "String escaping round-trips", "statement": "Escaping a string and then reducing it gives the string back; reducing a string never makes it longer.", "quantifier": "every byte string without NUL", "why_tests_cant": "Interaction of escapes with arbitrary neighbours.", "anchors": ["utils.cpp:escape_string", "utils.cpp:reduce_string"]}
{"id": "C07", "title": "Lexical scanners return the maximal token", "statement": "Skipping white space, a name, or to the end of a (code) line stops at the first character outside the class and consumes only characters in the class; a semicolon or backslash inside a string or character literal does not end the line.", "quantifier": "every text and start position", "why_tests_cant": "Universal over texts.", "anchors": ["utils.cpp:skip_whitespace", "utils.cpp:skip_to_name_end", "utils.cpp:skip_to_line_end", "utils.cpp:skip_to_next_line", "utils.cpp:next_code_line"]}
{"id": "C08", "title": "Operand bytes encode the operand value", "statement": "An 8-, 16- or 24-bit operand is emitted as exactly 1, 2 or 3 bytes, least significant first, whose value is the operand modulo 256, 65536 or 2^24; an index displacement in -128..127 decodes as a signed byte to the operand and any other is an error; a bit number is placed in bits 3..5 of the final opcode byte without changing the others.", "quantifier": "every 32-bit operand value and every base opcode byte", "why_tests_cant": "2^32 values per argument type.", "anchors": ["pass_two.cpp:write_arg"]}
{"id": "C09", "title": "Relative jumps land on their target", "statement": "For jr and djnz, if a displacement byte exists that takes the CPU from the address after the instruction to the target (modulo the address size) then exactly that byte is emitted, otherwise the out-of-range error is reported.", "quantifier": "every target value, every program counter, Z80 and eZ80 address sizes", "why_tests_cant": "Boundary and wrap-around behaviour for all pairs of addresses.", "anchors": ["pass_two.cpp:write_arg", "pass_one.cpp:write_instruction_data"]}
{"id": "C10", "title": "Declared instruction size equals emitted bytes", "statement": "For every instruction form in both built-in instruction tables the declared size equals opcode bytes plus operand bytes plus trailing byte, so that the address counter advances by exactly the number of bytes emitted.", "quantifier": "all rows of the Z80 and eZ80 tables and all operand values, in all eZ80 suffix modes", "why_tests_cant": "The test-suite exercises a dozen of over 1500 rows.", "anchors": ["opcodes.cpp:opcode_list", "opcodes_ez80.cpp:opcode_list_ez80", "pass_one.cpp:write_instruction_data"]}
{"id": "C11", "title": "Instruction tables agree with the Z80 instruction set", "statement": "The bytes emitted for every row of the Z80 table, with every operand value, decode under an independent description of the Z80 instruction encoding to the instruction written.", "quantifier": "all rows of the Z80 table and all operand values", "why_tests_cant": "Combinatorial table; a single wrong byte silently miscompiles.", "anchors": ["opcodes.cpp", "pass_one.cpp:write_instruction_data"]}
{"id": "C12", "title": "A written instruction form selects its own row", "statement": "When the operands are spelled as in a table row (registers verbatim, any case, any white space, any numeric text in operand slots) the matcher selects a row with the same meaning, never a different instruction.", "quantifier": "all rows, any operand text free of the row's own delimiters", "why_tests_cant": "Rows overlap textually (for example C the register and c... the label), and first-match order matters.", "anchors": ["pass_one.cpp:match_opcode_args"]}
{"id": "C13", "title": "Forward references assemble like backward references", "statement": "If an operand mentions a label defined later, the final output bytes are those that would have been emitted had the label been defined first with its final value.", "quantifier": "every program, every position of the definition, every operand type", "why_tests_cant": "Quantifies over all programs and both passes.", "anchors": ["pass_two.cpp:add_pass_two_expr", "pass_two.cpp:run_second_pass"]}
{"id": "C14", "title": "The second pass only fills reserved bytes", "statement": "The second pass never changes the output length, the final output position, or any byte outside the placeholders reserved in the first pass.", "quantifier": "every queue of pending operands and every output buffer", "why_tests_cant": "Aliasing over all queues.", "anchors": ["pass_two.cpp:run_second_pass"]}
{"id": "C15", "title": "RST with a forward-referenced vector", "statement": "An rst whose operand becomes known only in the second pass is encoded as if it had been known in the first.", "quantifier": "every forward reference", "why_tests_cant": "Needs a label defined later plus the one operand type with special handling.", "anchors": ["pass_two.cpp:run_second_pass", "pass_two.cpp:write_arg"]}
{"id": "C16", "title": "Error sessions nest like a stack", "statement": "Errors recorded inside a session are visible to that session only until it is replayed; ending it without replay leaves the enclosing sessions exactly as they were; replaying it passes its errors on to the enclosing session in order; counting in a session is unaffected by enclosing sessions.", "quantifier": "every well-nested sequence of session operations and errors", "why_tests_cant": "All histories of nested operations.", "anchors": ["errors.cpp:StartSPASMErrorSession", "errors.cpp:EndSPASMErrorSession", "errors.cpp:ReplaySPASMErrorSession"]}
{"id": "C17", "title": "Exit status reflects fatal errors", "statement": "An assembly that reports a fatal error does not produce an output file and exits with a failure status; an assembly with none exits with success.", "quantifier": "every sequence of recorded errors", "why_tests_cant": "All error histories.", "anchors": ["errors.cpp:EndSPASMErrorSession", "errors.cpp:IsSPASMErrorFatal", "main.cpp:run_assembly"]}
{"id": "C18", "title": "A zero exit status means every label was resolved", "statement": "If the assembler exits with status 0 then no operand was left as a placeholder because of an undefined label.", "quantifier": "every program", "why_tests_cant": "All programs.", "anchors": ["errors.cpp:IsSPASMErrorFatal", "pass_two.cpp:run_second_pass"]}
{"id": "C19", "title": "Label lookup is a case-insensitive finite map", "statement": "After defining a label its lookup under any letter case (in the default case-insensitive mode) gives its latest value, all other labels are unchanged, and lookup of a name never defined fails.", "quantifier": "every history of definitions and every name", "why_tests_cant": "All histories of map operations.", "anchors": ["storage.cpp:add_label", "storage.cpp:search_labels"]}
{"id": "C20", "title": "Defines behave as a map with undefine", "statement": "After #define the name maps to its contents, after #undef it maps to nothing, and other names are unaffected.", "quantifier": "every history of define and undef", "why_tests_cant": "All histories.", "anchors": ["storage.cpp:add_define", "storage.cpp:set_define", "storage.cpp:remove_define", "storage.cpp:search_defines"]}
{"id": "C21", "title": "Macro arguments are scoped", "statement": "Inside a macro call its parameters shadow global names, innermost call first, and when the call ends every name has the meaning it had before the call.", "quantifier": "every nesting of macro calls", "why_tests_cant": "All call nestings.", "anchors": ["storage.cpp:add_arg_set", "storage.cpp:remove_arg_set", "storage.cpp:search_local_defines"]}
{"id": "C22", "title": "Anonymous labels resolve relative to the current line", "statement": "`_` means the next anonymous label, n pluses followed by _ the n-th following one, n minuses followed by _ the n-th preceding one.", "quantifier": "every sequence of anonymous labels and every n", "why_tests_cant": "All histories.", "anchors": ["storage.cpp:add_reusable", "storage.cpp:search_reusables", "parser.cpp:parse_single_num"]}
{"id": "C23", "title": "The label file lists every label once, sorted", "statement": "The exported label list contains each label exactly once with its value and is sorted by name ignoring case.", "quantifier": "every label table", "why_tests_cant": "All tables.", "anchors": ["storage.cpp:write_labels"]}
{"id": "C24", "title": "The growable text buffer behaves as text", "statement": "Appending or inserting text in the growable buffer yields exactly the old text with the new text spliced in, for every size and position, without losing or duplicating characters.", "quantifier": "every buffer content, position, and inserted text", "why_tests_cant": "Capacity-doubling boundaries for all sizes.", "anchors": ["expand_buf.cpp:eb_insert", "expand_buf.cpp:eb_append"]}
{"id": "C25", "title": "Intel HEX output is lossless", "statement": "Decoding the Intel HEX image written for an app gives back exactly the assembled bytes, in order, each at its page and address.", "quantifier": "every byte buffer of any length", "why_tests_cant": "All buffer contents and sizes across record and page boundaries.", "anchors": ["export.cpp:intelhex"]}
{"id": "C26", "title": "Intel HEX records carry valid checksums", "statement": "Every record's bytes including its checksum sum to 0 modulo 256.", "quantifier": "every record of every image", "why_tests_cant": "All contents.", "anchors": ["export.cpp:intelhex"]}
{"id": "C27", "title": "ROM images are padded, not altered", "statement": "A ROM output starts with the assembled bytes, is padded with FF to exactly 512 KiB, and never loses bytes.", "quantifier": "every assembled program", "why_tests_cant": "All sizes around the pad boundary.", "anchors": ["export.cpp:makerom"]}
{"id": "C28", "title": "Variable files have correct checksum and lengths", "statement": "In every calculator variable file the trailing checksum equals the sum of the data section modulo 65536 and the header length field equals the data section's length.", "quantifier": "every program, every supported format and name", "why_tests_cant": "All contents, sizes and names.", "anchors": ["export.cpp:makeprgm"]}
{"id": "C29", "title": "Application files are consistent", "statement": "The app length field, page count and file length field agree with the data actually written.", "quantifier": "every app header and size", "why_tests_cant": "All sizes around page boundaries.", "anchors": ["export.cpp:makeapp"]}
{"id": "C30", "title": "App signatures verify", "statement": "The Rabin signature appended to an app squares, modulo the public key, to the transformed hash of the app, for every hash.", "quantifier": "all 2^128 MD5 hashes", "why_tests_cant": "2^128 inputs and number-theoretic correctness.", "anchors": ["export.cpp:siggen"]}
{"id": "C31", "title": "Output format follows the file extension", "statement": "The exporter used is determined by the extension of the output name ignoring case; unknown extensions give a raw binary.", "quantifier": "every file name", "why_tests_cant": "All names.", "anchors": ["export.cpp:write_file"]}
{"id": "C32", "title": "Exactly one branch of a conditional is assembled", "statement": "For a well-nested #if/#else/#endif block the lines assembled are those of the selected branch, all of them, at every nesting depth, and after the block assembly continues on the line following its #endif.", "quantifier": "every well-nested program text and every truth assignment of the conditions", "why_tests_cant": "All nestings and truth assignments.", "anchors": ["preop.cpp:do_if", "preop.cpp:skip_until", "preop.cpp:handle_preop"]}
{"id": "C33", "title": "Unbalanced conditionals are reported", "statement": "An #else or #endif without an open #if is reported as an error.", "quantifier": "every program text", "why_tests_cant": "Depends on conditional history.", "anchors": ["preop.cpp:handle_preop", "preop.cpp:skip_until"]}
{"id": "C34", "title": "Include search order", "statement": "An include resolves to the first existing file in the documented search order.", "quantifier": "every directory list and every set of existing files", "why_tests_cant": "All file systems.", "anchors": ["preop.cpp:full_path"]}
{"id": "C35", "title": "File name helpers", "statement": "Changing an extension replaces only what follows the last dot and keeps the rest of the name.", "quantifier": "every file name and extension", "why_tests_cant": "All names.", "anchors": ["utils.cpp:change_extension"]}
{"id": "C36", "title": "eZ80 suffixes select the documented prefix byte", "statement": "Each of the eZ80 suffixes (.sis .lis .sil .lil and their abbreviations in ADL and Z80 mode) emits its documented prefix byte and fixes the immediate size.", "quantifier": "all suffixes, both modes, every instruction", "why_tests_cant": "Mode-by-suffix combinations over all instructions.", "anchors": ["pass_one.cpp:parse_suffix", "pass_one.cpp:write_instruction_data"]}
{"id": "C37", "title": "Data directives emit what they describe", "statement": ".db, .dw, .dl emit the operands in order, each at its width, little-endian, strings byte by byte; the address counter and the output position advance together by the number of bytes emitted.", "quantifier": "every operand list", "why_tests_cant": "All operand lists.", "anchors": ["directive.cpp:handle_directive", "directive.cpp:parse_emit_string"]}
{"id": "C38", "title": "Fill and block directives", "statement": ".fill n,v emits exactly n copies of the low byte of v for n >= 0 and nothing else; .org changes the address counter only.", "quantifier": "every n, v and address", "why_tests_cant": "All values.", "anchors": ["directive.cpp:handle_directive"]}
{"id": "C39", "title": "Address counter and output position stay in step", "statement": "Between two .org/.seek directives, an assembled error-free program's address counter grows exactly as its output does.", "quantifier": "every sequence of instructions and data directives", "why_tests_cant": "All programs.", "anchors": ["pass_one.cpp:run_first_pass", "pass_one.cpp:write_out"]}
{"id": "C40", "title": "Output never exceeds the output buffer", "statement": "No program can make the assembler write outside its output buffer.", "quantifier": "every program", "why_tests_cant": "All programs.", "anchors": ["pass_one.cpp:write_out", "directive.cpp:handle_directive"]}
{"id": "C41", "title": "Substituting a symbol by its value keeps the value", "statement": "When a define is stored with symbols replaced by their numeric value (eval, redefinition, labels in expanded text), the replacement text evaluates to that value.", "quantifier": "all 2^32 values", "why_tests_cant": "All values: printing widths and signs.", "anchors": ["utils.cpp:eval", "utils.cpp:expand_expr_full"]}
{"id": "C42", "title": "Source files are read completely", "statement": "Reading a source file gives exactly its bytes, minus an optional UTF-8 byte order mark, for every file.", "quantifier": "every file content, including very short files", "why_tests_cant": "All contents and lengths.", "anchors": ["utils.cpp:get_file_contents"]}
{"id": "C43", "title": "Bitmap import writes the documented bytes", "statement": "Including an uncompressed BMP picture writes, per bit plane from the highest, one bit per pixel with rows from top to bottom, each row padded to whole bytes; the bits of a pixel are its shade out of __BM_SHD, computed from its luminance, 0 being the brightest. With __BM_MSK set a mask follows (or precedes, __BM_MSK_1ST; inverted, __BM_MSK_INV) that has 1 where the picture has the colour __BM_MSK_RGB. A picture wider than __BM_MIN_W is written in strips of that width. A label directly before the picture gets companions NAME_WIDTH and NAME_HEIGHT. The output address moves on by the number of bytes written.", "quantifier": "every picture of 1, 2, 4, 8 or 24 bits per pixel, every setting, every assembler state", "why_tests_cant": "Quantifies over every picture (size, depth, palette, pixels), every header content that does not matter, and every value of the settings.", "anchors": ["bitmap.cpp:160-336", "bitmap.cpp:338-491"]}
{"id": "C44", "title": "User-added instructions are encoded as declared", "statement": ".addinstr NAME FORM BYTES SIZE ... adds one instruction: a statement with that mnemonic and operands of that form emits the declared opcode bytes (the last written byte first, as in the built-in tables), the operand bytes and the declared end byte, and the address moves on by the declared size, which equals the number of bytes emitted. Statements with other mnemonics, and statements whose operands have another form, are encoded as before.", "quantifier": "every declaration line, every table, every statement", "why_tests_cant": "Quantifies over every declaration text, every instruction table and every later statement.", "anchors": ["directive.cpp:handle_directive"]}
{"id": "C45", "title": "Upper-casing of names changes letters only", "statement": "Converting a name to upper case, which the assembler does four characters at a time, gives each letter a-z in upper case and leaves every other byte, including bytes above 127 and control characters, unchanged; the length is unchanged.", "quantifier": "every byte string of every length", "why_tests_cant": "All four-byte combinations and all leftover lengths.", "anchors": ["modp_ascii.cpp:modp_toupper_copy", "utils.cpp:strup"]}
{"id": "C46", "title": "The default output file is beside the source", "statement": "When no output name is given, the output file has the source's directory and base name with the extension bin.", "quantifier": "every source path", "why_tests_cant": "All paths, including those whose directory part contains a dot.", "anchors": ["main.cpp:main", "utils.cpp:change_extension"]}
{"id": "C47", "title": "Evaluating an expression has no side effects", "statement": "Evaluating an expression changes no label, no output byte, no position, no address counter, no define and no macro argument (other than the built-in current line and file), and an expression that has no value records a problem.", "quantifier": "every expression text, every state, every set of defines and macros", "why_tests_cant": "All texts and states.", "anchors": ["parser.cpp:parse_num", "parser.cpp:parse_num_full", "preop.cpp:parse_define"]}
{"id": "C48", "title": "Whole programs assemble to the bytes of a reference assembler", "statement": "For a program made of labels, assignments, instructions, data directives, .fill/.block and .org, with several statements per line and comments, running the assembler on the file writes exactly one file, in the format its name asks for, holding the bytes given by a two-pass reference assembler (symbols first, then the bytes of each statement from the Z80/eZ80 row, the operand values and the address); nothing is printed and the exit status is 0. The symbol values are those of the reference.", "quantifier": "all programs of that form, both instruction sets, with and without case-sensitive names, every text layout", "why_tests_cant": "All programs: forward and backward references, address and buffer bookkeeping, two passes, error sessions and the export have to fit together.", "anchors": ["main.cpp:run_assembly", "pass_one.cpp:run_first_pass", "pass_two.cpp:run_second_pass", "export.cpp:write_file"]}
{"id": "C49", "title": "Every Z80 instruction can be written", "statement": "For every byte sequence the Z80 would execute as an instruction (including the undocumented CB, DD, FD and ED forms of the description) the Z80 table has a row whose text, with suitable operand values, is that instruction.", "quantifier": "all byte sequences and all addresses", "why_tests_cant": "The whole opcode space with all prefixes and operand bytes.", "anchors": ["opcodes.cpp"]}
{"id": "C50", "title": "A defined symbol stands for the value of its definition", "statement": "A symbol made by #define whose text is an expression contributes, wherever its name is used in an expression, the value of that expression, as if it stood in parentheses; the text may use labels and further such symbols to any depth the evaluator allows (twenty). Evaluating it changes nothing else.", "quantifier": "every expression, every nest of definitions and labels", "why_tests_cant": "Quantifies over every expression text, every set of definitions (a tree of any shape) and every state of the assembler.", "anchors": ["parser.cpp:310-420", "parser.cpp:42-120", "storage.cpp:300-360"]}
{"id": "C51", "title": "A macro call assembles its body with the arguments in place of the parameters", "statement": "A file defines macros (#macro name(parameters) \u2026 #endmacro) and then calls them as statements. Each call assembles the lines of the macro's body as if they stood at the call, with each parameter standing for the value its argument has there; conditionals in a body are decided anew for each call with that call's parameters, bodies can call further macros to any depth, labels defined in a body are defined for the rest of the file, and assembly goes on after the call. The output file is exactly the bytes of these statements, the exit status is 0 and nothing is reported.", "quantifier": "for all lists of macro definitions, all programs of lines, conditional blocks and (nested) calls, all arguments, -D options, instruction sets and case sensitivities", "why_tests_cant": "the number of definitions, nestings of calls and conditionals, and argument values is unbounded; a test shows only one expansion", "anchors": ["pass_one.cpp:192-262", "pass_one.cpp:425-538", "utils.cpp:264-340", "storage.cpp:382-445"]}
{"id": "C52", "title": "Arguments of a macro call mean what they mean where the call is written", "statement": "The value of an argument of a macro call is the value the same expression has on the line of the call; the names the macro's author gave the parameters do not matter.", "quantifier": "for all macros, calls and argument expressions", "why_tests_cant": "whether names collide depends on the choice of parameter names in every macro and of symbols in every caller", "anchors": ["pass_one.cpp:192-262", "pass_one.cpp:425-538", "utils.cpp:264-340", "storage.cpp:382-445"]}
{"id": "C53", "title": "Programs in several files", "statement": "For every program whose lines include other source files and insert other files as data (#include, #import, nested, with macros and conditionals inside any of them) the output file has exactly the bytes, and the labels exactly the values, of the reference assembler, in which an include stands for the lines of the file and an import for the bytes of the file. A relative name is the first existing file among the directory of the input (or the working directory) and the -I directories in the order given; an absolute name is the file itself. Replacing an include line by the text of the file it names changes neither the output file nor the symbols.", "quantifier": "for all programs of several files in the reference syntax, all file systems, all lists of -I directories, all nesting depths, all values and positions", "why_tests_cant": "Which lines are assembled, where, with what addresses and with what line counting depends on unboundedly many combinations of nested files, directories, labels and forward references; tests try a few.", "anchors": ["preop.cpp:395-440", "preop.cpp:442-560", "preop.cpp:566-611", "main.cpp:91-132", "main.cpp:304-330", "pass_one.cpp:40-110"]}
{"id": "C54", "title": "#import inserts the bytes of the file", "statement": "#import of a readable file puts the bytes of that file, all of them and in order, into the output at the current position, advances the program counter by their number, and leaves every other part of the assembler's state as it was. #import of a file that is not found reports an error.", "quantifier": "for all states of the assembler, all file contents, all names", "why_tests_cant": "The claim is about every file content (including bytes that look like source text or like an end of file) and about what does not change.", "anchors": ["preop.cpp:566-611", "preop.cpp:395-440"]}
{"id": "C55", "title": "A defined constant means its value", "statement": "A file begins with constants (#define name expression, or #define name for 1) and macros, and its program uses them in instructions, data, conditionals, macro bodies and included files; names given on the command line (-DNAME=expression, the last one counts) and the names that are always there (TRUE, FALSE, SPASM, SPASMVER) are used in the same way. Every use of a constant stands for the value of its expression (as if it were in parentheses), constants can be made of earlier constants and of names of the command line, and defining a constant by another expression of the same value changes neither the output file nor the symbols.", "quantifier": "for all headers, all constant expressions, all programs that use them, all -D and -I options", "why_tests_cant": "The claim relates all pairs of definitions with the same value and all places of use; tests compare a few spellings.", "anchors": ["preop.cpp:272-391", "parser.cpp:156-180", "parser.cpp:380-422", "storage.cpp:267-330", "storage.cpp:474-500", "main.cpp:343-375"]}
{"id": "C56", "title": "A defined constant means its value also in expressions that use a label defined further down", "statement": "Where an expression uses a defined constant and a label, its value does not depend on whether the label is defined before or after the line.", "quantifier": "for all constants, expressions and labels", "why_tests_cant": "It is a claim about every combination of constant, operators around it and position of the label.", "anchors": ["parser.cpp:156-180", "parser.cpp:380-422", "preop.cpp:272-391"]}
{"id": "C57", "title": "Moving the position with .seek", "statement": "`.seek e` makes the value of e the program counter and moves the place where the next byte goes by the same distance, forwards or backwards; nothing else changes. If that place is outside of the output buffer an error is reported and the assembler ends with a status of at least 3.", "quantifier": "for every readable expression over known labels, every program counter and place in the output", "why_tests_cant": "A test seeks to a few places; the two distances have to agree for every pair of places, and the boundary is at eight million bytes.", "anchors": ["directive.cpp:437-456"]}
{"id": "C58", "title": "Seeking back keeps the bytes behind", "statement": "Going back with `.seek` and overwriting some bytes leaves the bytes behind these as they were.", "quantifier": "for all programs", "why_tests_cant": "The end of the output is where the last byte was written, which only shows when a program seeks back and does not return to the end.", "anchors": ["directive.cpp:437-456", "export.cpp:35-60"]}
{"id": "C59", "title": "Options of .option", "statement": "`.option a=x, b, c=\"t\"` defines the names __A, __B, __C (upper case, with two underscores) as the texts behind the equal signs, without quotes, and as 1 where there is none; the last one counts. No other name changes.", "quantifier": "for every list of names and texts, every state", "why_tests_cant": "Tests cannot try all lists; the claim includes that no other name changes.", "anchors": ["directive.cpp:394-436", "storage.cpp:267-330"]}
{"id": "C60", "title": "Switching with .assume adl", "statement": "`.assume adl = e` switches to 24-bit mode if e is not 0 and to 16-bit mode otherwise when the assembler was started for the eZ80; otherwise it is an error, and nothing else changes.", "quantifier": "for every readable expression over known labels and every state", "why_tests_cant": "The value can be written in unboundedly many ways.", "anchors": ["directive.cpp:457-479"]}
{"id": "C61", "title": "Directives without effect and .error", "statement": "`.end`, `.list` and `.nolist` do nothing (code after `.end` is assembled as well). `.error` with a list of strings and expressions is an error where it stands, and an error there ends the assembler with status 3.", "quantifier": "for all texts behind the word, all lists, all states", "why_tests_cant": "That nothing at all changes cannot be seen by looking at a few outputs.", "anchors": ["directive.cpp:340-361", "directive.cpp:480-500", "errors.cpp:226-320"]}
{"id": "C62", "title": "What .echo prints", "statement": "`.echo` with a list of strings and expressions prints the strings and the values in decimal, one after the other, with a line feed at the end, when the second pass comes to it, in the order of the program; nothing of it goes into the output file.", "quantifier": "for every list of strings and readable expressions over known labels and every state", "why_tests_cant": "The text passes through escaping, a second parse and the queue of the second pass; every byte of it has to survive.", "anchors": ["directive.cpp:288-340", "pass_two.cpp:98-121", "pass_two.cpp:147-191"]}
{"id": "C63", "title": "Comments of several lines", "statement": "Everything from a line `#comment` to the line `#endcomment` is passed over: the assembler goes on behind it in exactly the state it had, with the line number the text has. The lines between may hold anything in which no statement begins with a closing parenthesis and conditional directives are balanced.", "quantifier": "for all comments, all states, all texts behind the comment", "why_tests_cant": "Comments are arbitrary text; tests try a few of them. That nothing in the state changes cannot be seen from outputs.", "anchors": ["preop.cpp:145-154", "preop.cpp:713-767"]}
{"id": "C64", "title": "#undef removes one name", "statement": "After `#undef name` or `#undefine name` (in any case) that name is not a define, every other define is as it was, and nothing else changes.", "quantifier": "for all names, all states with a well-formed table of defines", "why_tests_cant": "The claim is about every other name in every table.", "anchors": ["preop.cpp:131-144", "storage.cpp:452-462"]}
{"id": "C65", "title": "Lines without effect", "statement": "`#region` and `#endregion`, and `#endcomment` and `#endmacro` where nothing is open, only count as a line, whatever is written behind them (unless it begins with a backslash).", "quantifier": "for all texts, all states", "why_tests_cant": "That nothing at all changes cannot be seen by looking at a few outputs.", "anchors": ["preop.cpp:31-75", "preop.cpp:155-160"]}
{"id": "C66", "title": "Unknown preprocessor words", "statement": "A word behind # that is none of the eighteen known ones (in any case) is an error where it stands, nothing else changes, and an error there ends the assembler with status 3.", "quantifier": "for all words, all states", "why_tests_cant": "There are infinitely many unknown words.", "anchors": ["preop.cpp:31-62", "errors.cpp:226-320"]}
{"id": "C67", "title": "What is in a listing", "statement": "With -T, the listing shows every line that is not between `.nolist` and `.list`, in order: its number right-aligned in five columns, its address with the bank, its final bytes in rows of four with `-` for missing ones (also the bytes known only at the end), and its text; lines read as one (such as a macro definition) each get a number. The two directives themselves are not shown when they switch.", "quantifier": "for all sequences of lines with numbers below 100000, any number of bytes, any mix of known and pending values", "why_tests_cant": "A pending value may start anywhere in a row, cross rows, or lie in a part that is not listed; the second pass patches the text at remembered offsets. Tests see a few layouts.", "anchors": ["pass_one.cpp:38-148", "pass_two.cpp:24-66", "pass_two.cpp:137-191", "directive.cpp:340-360", "main.cpp:161-186"]}
{"id": "C68", "title": "Definitions in included files", "statement": "Definitions of constants and macros may stand in files included before the program, nested to any depth, between blank lines and comments and inside #ifdef/#ifndef with #else: the program assembles as if exactly the definitions that count stood there in the order in which they are read. A file all of whose lines stand between `#ifndef NAME` and `#endif` may be included again anywhere once NAME is defined, without any change to the output or the labels.", "quantifier": "for all nestings of files and conditionals in front of a program, all orders of definitions, all worlds of files and all programs behind them", "why_tests_cant": "Whether a definition counts depends on every definition read before it in any file; the number of combinations of guards, files and branches is unbounded. Tests see a few headers.", "anchors": ["preop.cpp:31-270", "preop.cpp:272-398", "preop.cpp:399-560", "preop.cpp:620-676", "preop.cpp:713-830", "pass_one.cpp:152-200", "storage.cpp:100-260"]}
{"id": "C69", "title": "One-line macros", "statement": "A macro whose body is one line of statements, separated by backslashes, may be written `#define name(parameters) body` or with #macro and #endmacro: in a program whose statements call it, both ways give the same output file and the same labels, without messages, whatever other definitions, files, conditionals and calls the program has.", "quantifier": "for all macros with such a body, any number of them rewritten in any header, and all programs that call them", "why_tests_cant": "Macro bodies, parameter lists, nestings of calls and programs around them are unbounded; a test compares single texts.", "anchors": ["preop.cpp:272-398", "preop.cpp:678-711", "pass_one.cpp:202-300", "parser.cpp:60-330"]}
{"id": "C70", "title": "The order of the options does not matter", "statement": "Two command lines with the same switches (-O -T -C -L -S -N -E -A, given once or more, anywhere), the same include directories in the same order and the same file names, definitions and lines to assemble in the same order have the same result: the same status, files, messages and final state, or the same failure. The operand of -I, -D and -V may stand in the same argument or in the next one, and directories may be given in one -I or in several.", "quantifier": "for all command lines of any length without -h and unknown options, all worlds of files and all sources", "why_tests_cant": "The number of arrangements of options is unbounded and the result depends on the whole run; a test tries single command lines.", "anchors": ["main.cpp:254-425"]}
{"id": "C71", "title": "One-line macros used as functions in expressions", "statement": "Where an expression is evaluated at once (an equate, #if, .org, a macro argument), a call name(arg, ...) of a one-line macro whose body is an expression stands for the value of the body with the values of the arguments for the parameters. The body is evaluated on its own: operators around the call do not reach into it. Reading such an expression leaves the program counter, the output, the symbols, the definitions and the macro arguments in force as they were.", "quantifier": "for all expressions built from terms and calls, all macros and argument lists, all states of the assembler between two lines, in and outside macros", "why_tests_cant": "There is no bound on the macros, arguments, operators or the state in which the expression is met; tests only try fixed ones.", "anchors": ["/repo/parser.cpp:156-180", "/repo/parser.cpp:370-425", "/repo/utils.cpp:264-330"]}
{"id": "C72", "title": "How a program is written does not matter", "statement": "Two source files that state the same labels, instructions, data, fills, origins and assignments in the same order are assembled to the same output file with status 0, whatever their layout: blanks, comments, empty lines, several statements on a line or one each, a label on a line of its own or before its statement, the spelling of directives and mnemonics, .equ or =, the notation of numbers, expressions of equal value, and the names of the labels if the renaming keeps different names different and avoids the predefined names. Corresponding labels have the same value. Without -A the case of letters in names does not matter; if no two names of a program differ only in case, -A does not matter.", "quantifier": "for all pairs of valid programs of the reference assembler related by a correspondence of names; Z80 and eZ80; with and without -A", "why_tests_cant": "It relates the outcomes of two runs on infinitely many pairs of texts; a test compares single pairs.", "anchors": ["main.cpp:main", "pass_one.cpp:run_first_pass", "parser.cpp:parse_f", "storage.cpp:add_label", "utils.cpp:skip_whitespace"]}
{"id": "C73", "title": "What -I, -D, -V and a missing output name mean", "statement": "One -I with several directories, separated by semicolons or commas, is the same as one -I for each of them in that order. -DNAME= is the same as -DNAME=1, and so is -DNAME. With -V the text given is assembled as if it were a source file of that text and a line break, and the bytes are written to -v.bin. Without a second file name the output file has the name of the input file with the extension replaced by bin, or bin added if it has none.", "quantifier": "for all positions of the option among any other options, all directory lists and names, all valid programs of the reference assembler; Z80 and eZ80", "why_tests_cant": "The texts and option lists are unbounded and the claim is about whole runs; a test tries single command lines.", "anchors": ["main.cpp:315-340", "main.cpp:343-375", "main.cpp:376-400", "main.cpp:405-450"]}
{"id": "C74", "title": "Text a program writes for itself is assembled as if it stood in the program", "statement": "clr() empties the chosen buffer, wr(...) adds a line made of the given strings and numbers to it, run() assembles the text of the buffer at that point and empties it, buf(n) chooses one of ten independent buffers. A program in which any groups of lines are replaced by clr(), one wr per line, and run() gives the same output file and the same symbols as the program with those lines in place, and nothing else of the state of the assembler changes. Names of macros are not affected by these four words.", "quantifier": "for all programs of the reference assembler, all ways of choosing the groups of lines, all indents and letter cases of the words; Z80 and eZ80; for the single words, all states", "why_tests_cant": "The programs and the ways to split them are unbounded, and the pass over the generated text runs inside the pass over the file; a test tries single programs.", "anchors": ["pass_one.cpp:336-425", "directive.cpp:529-765"]}
{"id": "C75", "title": "Whatever the program, the label file names each label once", "statement": "If an assembly with option -L succeeds, the label file consists of one line NAME = $VALUE for each label the program defined, and one for each define that has a value, in alphabetical order ignoring case. No two labels in it have the same name, also not in different spellings unless option -A makes case matter, and without -A the names are in upper case. Labels are never dropped once defined.", "quantifier": "for all programs, source files, include files, options and file names", "why_tests_cant": "Programs are arbitrary, with macros, includes and redefinitions; the claim needs an invariant of every step of the assembler.", "anchors": ["storage.cpp:42-131", "storage.cpp:558-609", "main.cpp:150-190"]}
{"id": "C76", "title": "The output format does not change the code", "statement": "Two successful assemblies of the same program with the same options that differ only in the name of the output file produce the same code, and each output file is this code in the format its extension asks for. So the .hex file read by an Intel HEX reader, the .rom file without its padding, and the data of the .8xp, .8xv or .73p variable are exactly the bytes of the .bin file. The code consists of bytes and is never longer than 8,000,000 bytes.", "quantifier": "for all programs, source files, options, and pairs of output names", "why_tests_cant": "It relates two runs of an arbitrary program; a test compares the formats of single programs.", "anchors": ["export.cpp:108-199", "main.cpp:37-219", "pass_one.cpp:38-72"]}
{"id": "C77", "title": "A program assembles alike with every build of the assembler", "statement": "If assembling a program comes to an end with a build of the assembler in which signed integer overflow is undefined, and the program asked for no random character ('\\#'), then any other build, whatever its compiler makes of signed overflow and whatever its random numbers are, ends with the same exit status, the same output files and the same messages for the same files and options. The only inputs besides the files and the options that can influence the result are overflow and '\\#'.", "quantifier": "for all programs, source files, include files, options, and pairs of builds", "why_tests_cant": "It relates two runs of an arbitrary program under different compilers and C libraries; a test has one build.", "anchors": ["parser.cpp:287", "parser.cpp:549-591", "main.cpp:37-219"]}
{"id": "C78", "title": "Asking for a label file does not change the code", "statement": "Assembling a program with the option -L, which asks for a label file, writes byte for byte the same output file as assembling it without; besides the output file only the label file, named after it, is written.", "quantifier": "for all programs, source files, include files and other options with which both runs succeed", "why_tests_cant": "It relates two runs of an arbitrary program; a test compares the runs of the programs at hand.", "anchors": ["main.cpp:135-160", "storage.cpp:42-131"]}
{"id": "C79", "title": "The reported sizes count every statement", "statement": "The sizes and times printed by -C and -S grow with every statement by what that statement contributes: an instruction adds its bytes to the code size, its execution times (with the eZ80 penalties for a suffix and for ADL mode) to the times and nothing to the data size; .fill, a number and a string in a data directive add to the data size exactly the bytes by which the output and the address counter advance. The total reported is the size of the output.", "quantifier": "for all states, operands, values, suffixes, modes and strings", "why_tests_cant": "The sums are over every statement of an arbitrary program in any state, including wrapped counters; a test compares the reports of the programs at hand.", "anchors": ["main.cpp:193-201", "pass_one.cpp:314-331", "directive.cpp:126-139", "directive.cpp:541-645", "storage.cpp:562-565"]}
{"id": "C80", "title": "Reported execution times are those of the processor", "statement": "For every Z80 instruction the least and greatest execution times that -C adds are the documented numbers of clock periods (T-states) of its opcode.", "quantifier": "for all rows of the Z80 table, all bit numbers and restart addresses, all spellings and operands of a statement, all states", "why_tests_cant": "832 rows standing for more opcodes, each in any spelling; tests sample a few instructions.", "anchors": ["opcodes.cpp:1-1060", "pass_one.cpp:314-331", "main.cpp:193-196"]}
{"id": "C81", "title": "Echoing to a file", "statement": "The directive .echo > name, values replaces the contents of the named file by the texts of the values, and .echo >> name, values puts them behind what the file holds: strings as they are, numbers in decimal, in order and with nothing between them. No other file changes, and assembly goes on after the statement in the same state. A relative name is looked up in the current directory.", "quantifier": "for all states, file names, lists of strings and expressions, earlier echoes and contents of the disk", "why_tests_cant": "Contents depend on every earlier echo of the run and on the values in the state; a test fixes one program and one disk.", "anchors": ["directive.cpp:244-286", "directive.cpp:529-765", "utils.cpp:590-618"]}
{"id": "C82", "title": "Values a directive cannot take", "statement": "A negative address for .org, a missing one, a negative count for .fill or .block, .equ without a label before it and .assume of anything but ADL each record an error that ends the run with status 3 and change nothing else: not the address, not the output, not the labels. With a value that is allowed, .org changes the address only and .equ the value of the label before it only.", "quantifier": "for every readable expression over known labels, every state and every way of writing the directive", "why_tests_cant": "The value can be written in unboundedly many ways, and that nothing else changes is a statement about the whole state.", "anchors": ["directive.cpp:73-139", "directive.cpp:361-376", "directive.cpp:457-479", "errors.cpp:EndSPASMErrorSession"]}
{"id": "C83", "title": "The warning about extra parentheses", "statement": "An operand of an instruction is warned about exactly when it is, as a whole, one expression in parentheses, however it is written and whatever blanks follow; (2)+(3) is not. The warning makes the status of the run at least 1.", "quantifier": "for every expression and way of writing it, every row of the instruction table and every state", "why_tests_cant": "The test is a scan for the matching parenthesis; whether it agrees with the grammar depends on every nesting and spelling.", "anchors": ["pass_one.cpp:684-715"]}
{"id": "C84", "title": "Using a name again", "statement": "A label that occurs again takes the new address, other labels keep theirs, and the status of the run is at least 1 if the address is another one than before. A name that is a define or macro parameter cannot become a label, nor a label a define: the names stay as they are and the status is at least 2. A define without text stands for 1, whatever it stood for before. An assignment gives the name the value of its expression, the expression sees the value the name had before, and there is a warning exactly if the value changes.", "quantifier": "for every name, rest of the line, expression and state", "why_tests_cant": "The table of labels is shared by all lines of all files, and the first pass may meet a name in any state of it.", "anchors": ["pass_one.cpp:192-262", "storage.cpp:558-609", "storage.cpp:267-330", "preop.cpp:272-391"]}
{"id": "C85", "title": "Preprocessor lines that lack their operand", "statement": "A #define, #undef, #macro, #ifdef, #ifndef or #if with nothing behind it, and a #defcont before any #define, is reported and ends the run with status 3; an #include or #import without a file name makes the status at least 2. Nothing else changes, except that #if opens a block.", "quantifier": "for every way of writing the word, every blank and comment behind it, and every state", "why_tests_cant": "Each preprocessor word has its own test for the end of the line, and the state in which the line is met is arbitrary.", "anchors": ["preop.cpp:31-263", "preop.cpp:272-290", "preop.cpp:444-460", "preop.cpp:566-580", "preop.cpp:620-638"]}
{"id": "C86", "title": "What .show prints", "statement": ".show NAME prints one line with the name, its parameters in parentheses and its text, at once if NAME is a define where the line stands, otherwise after the first pass if it is a define by then; a name that is not is reported, and the status of the run is not 0.", "quantifier": "for every name, blanks and comment behind it, number of parameters, text and state of both passes", "why_tests_cant": "Whether the line is printed at once or later depends on the state of the first pass, and what is printed later on any state of the second.", "anchors": ["directive.cpp:377-393", "directive.cpp:490-509", "pass_two.cpp:98-121", "pass_two.cpp:199-240"]}
{"id": "C87", "title": "Which lists of parameters are accepted", "statement": "A #define or #macro whose list of parameters has the same name twice (in any letters, unless names are case sensitive) or more than sixteen names ends the assembly there with status 3 and without an output file; every other list is accepted, and the define gets the parameters and the text behind the list. Every other name keeps its definition.", "quantifier": "for every list of parameters of any length and spacing, every name and state", "why_tests_cant": "Both conditions are found while the list is read, one name at a time, into a define that may exist already.", "anchors": ["preop.cpp:678-710", "preop.cpp:188-232", "preop.cpp:272-391"]}
{"id": "C88", "title": "Names for labels that come later", "statement": "A name that is given the value of an expression with a later label, by = or .equ, either gets that value or the program is reported; any other error in the expression is recorded too.", "quantifier": "for every expression, way of writing it, name and state", "why_tests_cant": "It depends on which labels are known when the line is read, that is, on everything before and after it.", "anchors": ["pass_one.cpp:243-255", "directive.cpp:361-376", "parser.cpp:112-126"]}
{"id": "C89", "title": "Directives that need a value at once", "statement": "A .org, .fill, .block or .seek, or an #if, whose expression has a label that comes later either uses the address of that label or the program is reported; other errors in the expression are recorded.", "quantifier": "for every expression, way of writing it and state", "why_tests_cant": "It depends on which labels are known when the line is read, that is, on everything before and after it.", "anchors": ["directive.cpp:73-139", "directive.cpp:437-456", "main.cpp:118-121", "errors.cpp:110-116", "errors.cpp:228-277"]}
{"id": "C90", "title": "What a warning does", "statement": "A value that is cut to a byte, or an argument too many, is warned about, and a program that gets only warnings is assembled all the same.", "quantifier": "for every expression, state and list of recorded problems", "why_tests_cant": "A test sees one program; which problems stop a run is decided from everything recorded in a pass.", "anchors": ["directive.cpp:98-139", "errors.cpp:110-116", "errors.cpp:138-181", "errors.cpp:220-277", "main.cpp:118-121", "main.cpp:137-140"]}
{"id": "C91", "title": "Every run comes to an end", "statement": "Assembling a program comes to an end: a file that includes itself, or a define that stands for itself and is used as a statement, is reported.", "quantifier": "for every output file and every number of nested calls", "why_tests_cant": "No test can observe that a run never ends.", "anchors": ["preop.cpp:444-557", "pass_one.cpp:116-262", "pass_one.cpp:429-520"]}
{"id": "C92", "title": "Statements nobody knows", "statement": "A word in the place of an instruction that is no instruction, macro or define, a word after a dot that is no directive either, and a line that begins with a character that begins no statement, are reported; nothing else changes, and no file is written.", "quantifier": "for every word, state and rest of the line", "why_tests_cant": "There is no end of words that are not known; whether one is depends on everything defined before.", "anchors": ["pass_one.cpp:192-262", "pass_one.cpp:312-364", "directive.cpp:20-50"]}
{"id": "C93", "title": "What follows an expression", "statement": "An expression followed by blanks and a character that begins no operator, ends no line and closes no parenthesis has no value, and that an operator was expected is reported; an expression followed by an operator and nothing else has no value, and that a value was expected is reported. No file is written.", "quantifier": "for every expression that has a value, every such text behind it and every state", "why_tests_cant": "The texts that can follow an expression are unlimited, and so are the expressions before them.", "anchors": ["parser.cpp:518-646"]}
{"id": "C94", "title": "Parentheses too many and too few", "statement": "An expression with closing parentheses behind it, or with opening ones before it that are not closed on the line, has the value it has without them, and the status of the run tells that a warning was given. Nothing behind a closing parenthesis too many is dropped without a message.", "quantifier": "for every expression that has a value and every number of parentheses (opening ones within the limit of nesting)", "why_tests_cant": "Expressions are unlimited, and so is the number of parentheses around them.", "anchors": ["parser.cpp:593-632", "utils.cpp:400-414"]}
{"id": "C95", "title": "Errors that are printed and the output file", "statement": "A run that prints an error leaves no output file, and its status is not 0.", "quantifier": "for every program, option list and set of files", "why_tests_cant": "Errors come from every part of the program, and whether one stops the run depends on how it is reported.", "anchors": ["utils.cpp:916-939", "pass_two.cpp:321-327", "storage.cpp:281-290", "errors.cpp:108-118"]}
