{"claims": [
 {"property": "C01", "status": "proved", "theorems": ["C01_tokens_terminates"], "note": ""},
 {"property": "C02", "status": "proved", "theorems": ["C02_vector_shape"], "note": ""},
 {"property": "C03", "status": "proved", "theorems": ["C03_no_comment_token"], "note": ""},
 {"property": "C04", "status": "proved", "theorems": ["C04_newlines_collapsed"], "note": ""},
 {"property": "C05", "status": "proved", "theorems": ["C05_doc_only_on_definitions"], "note": ""},
 {"property": "C06", "status": "proved", "theorems": ["C06_reads_in_bounds", "C06_literals_are_bytes"], "note": ""},
 {"property": "C07", "status": "proved", "theorems": ["C07_cursor_positions", "C07_token_positions", "C07_vector_positions"], "note": "positions of tokens inside heredocs refer to the heredoc text; C07_vector_positions excludes sources containing <<"},
 {"property": "C08", "status": "proved", "theorems": ["C08_crash_causes", "C08_no_crash", "C08_never_aborts_refuted", "C08_no_overflow_refuted"], "note": "the only two crash causes are characterised; both are reachable, which refutes the unconditional claim"},
 {"property": "C09", "status": "proved", "theorems": ["C09_decimal", "C09_decimal_in_context", "C09_zero"], "note": ""},
 {"property": "C10", "status": "proved", "theorems": ["C10_prefixed", "C10_decimal_prefix", "C10_bare_octal", "C10_bare_octal_bignum_refuted", "C10_decimal_prefix_bignum_refuted"], "note": "refuted for bare-octal bignums and for 0d0... bignums, proved for everything else"},
 {"property": "C11", "status": "proved", "theorems": ["C11_raw_round_trip", "C11_single_quoted", "C11_escaped_opener_refuted"], "note": "also for %q, :'...' and %s; a nesting opening delimiter cannot be escaped (refuted)"},
 {"property": "C12", "status": "proved", "theorems": ["C12_round_trip", "C12_pieces"], "note": "also for backticks, :\"...\", %Q, %(), %x, and for every mixture of escapes"},
 {"property": "C13", "status": "proved", "theorems": ["C13_utf8"], "note": ""},
 {"property": "C14", "status": "proved", "theorems": ["C14_octal", "C14_hex", "C14_unicode", "C14_braced", "C14_leading_blank_refuted"], "note": "refuted only for a blank after \\u{"},
 {"property": "C15", "status": "proved", "theorems": ["C15_identifier", "C15_in_context", "C15_first_byte_refuted"], "note": "refuted for a first byte 0xEF at the start of the source"},
 {"property": "C16", "status": "proved", "theorems": ["C16_keyword", "C16_in_context"], "note": ""},
 {"property": "C17", "status": "proved", "theorems": ["C17_nesting", "C17_nesting_refuted"], "note": "refuted for %W/%I with two interpolations in one word, proved for everything else"},
 {"property": "C18", "status": "proved", "theorems": ["C18_string", "C18_single_quoted", "C18_regexp", "C18_words", "C18_symbol_refuted"], "note": "proved for strings with and without escapes, regexps and word arrays; refuted for :'... and %s(...; heredocs not covered here"},
 {"property": "C19", "status": "proved", "theorems": ["C19_same_code", "C19_names", "C19_same_code_refuted", "C19_braces_refuted"], "note": "Refuted in general; proved for code over the elements of SpecText that 'items_fine' accepts both at top level and without a previous token to look back to (no string inside braces). Regexps, heredocs, %w and comments inside the code are outside of this."},
 {"property": "C20", "status": "proved", "theorems": ["C20_raw_heredoc", "C20_in_context", "C20_closing_line_refuted", "C20_tab_refuted"], "note": "Raw heredocs as whole sources; all quotes and several heredocs per line at an arbitrary lexer state (interpolated bodies go to a nested lexer with exactly that text). Refuted: for <<- and <<~ a line merely ending in a blank and the name closes; a tab before the name stays in the text."},
 {"property": "C21", "status": "proved", "theorems": ["C21_dedent", "C21_blank_lines_refuted"], "note": "Proved when some line is not blank; refuted for bodies of blank lines only."},
 {"property": "C22", "status": "proved", "theorems": ["C22_regexp"], "note": ""},
 {"property": "C23", "status": "proved", "theorems": ["C23_words"], "note": ""},
 {"property": "C24", "status": "proved", "theorems": ["C24_leading_blanks", "C24_leading_blanks_abort", "C24_comment_refuted", "C24_heredoc_refuted", "C24_mark_refuted"], "note": "Two-run simulation over the whole lexer; each exception is shown to be needed."},
 {"property": "C25", "status": "proved", "theorems": ["C25_terminates", "C25_parser_abort", "C25_transform_abort", "C25_total_refuted"], "note": "termination proved; the claim as it stands is refuted by concrete sources that abort; every parser and transform abort is one of the listed ones (lexer aborts: C08)"},
 {"property": "C26", "status": "proved", "theorems": ["C26_in_range", "C26_all_tokens"], "note": ""},
 {"property": "C27", "status": "proved", "theorems": ["C27_expressions", "C27_anywhere", "C27_power_refuted", "C27_spaceship_refuted", "C27_not_refuted"], "note": "Operator expressions over leaf tokens, parentheses, unary and binary operators, stated on token sequences; method calls, ranges, ternaries and assignments inside operands are outside this fragment. Three forms are refuted and excluded by 'unexceptional'."},
 {"property": "C28", "status": "proved", "theorems": ["C28_keywords", "C28_symbols", "C28_order", "C28_nesting_refuted"], "note": "Stated on token sequences; trees with chains as flat lists, so the uneven nesting (refuted separately) does not matter."},
 {"property": "C29", "status": "proved", "theorems": ["C29_precedences", "C29_whole", "C29_depth_refuted"], "note": "precedence stack balanced and call-depth stack never shorter: proved; call-depth stack balanced: refuted"},
 {"property": "C30", "status": "proved", "theorems": ["C30_programs", "C30_lambda_refuted"], "note": "For the fragment of SpecProg (assignments, def with plain parameters, class/module, while/until, do and brace blocks, operator expressions), stated on token sequences. Refuted for lambda parameters."},
 {"property": "C31", "status": "proved", "theorems": ["C31_in_context", "C31_after_word", "C31_regexp_refuted"], "note": "Two-run simulation; the exception for regular expressions is shown to be needed."},
 {"property": "C32", "status": "proved", "theorems": ["C32_tokens", "C32_not_equal_refuted", "C32_equal_behind_symbol_refuted", "C32_equal_behind_constant_refuted", "C32_equal_behind_scope_refuted", "C32_optional_parameter_refuted"], "note": "Whole sources over the elements of SpecLexeme; double-quoted strings, heredocs, %-literals, regexps and doc comments are covered by other claims, not by this one. Five forms that Ruby reads differently are refuted and excluded by 'fits'."},
 {"property": "C33", "status": "proved", "theorems": ["C33_layout"], "note": ""},
 {"property": "C34", "status": "proved", "theorems": ["C34_program", "C34_one_meaning", "C34_while_do_refuted", "C34_modifier_of_and_refuted", "C34_two_modifiers_refuted", "C34_assignment_argument_refuted", "C34_group_loop_refuted", "C34_bare_return_refuted", "C34_superclass_refuted", "C34_empty_else_refuted", "C34_assignment_operand_refuted", "C34_splat_argument_refuted", "C34_lambda_scope_refuted", "C34_sclass_scope_refuted", "C34_nested_code_refuted", "C34_begin_line_refuted", "C34_rescue_loop_refuted", "C34_rescue_modifier_refuted", "C34_splat_operator_refuted", "C34_rescue_in_method_refuted"], "note": "For the grammar of SpecRuby, stated on token sequences. Outside of it: begin without clauses, rescue in other bodies, the rescue modifier, adjacent strings, heredocs, regexps, multiple assignment, splats and block-pass as the first argument or the last of a command, parameters of lambdas, case/in. The refuted forms are excluded by 'fits'."},
 {"property": "C35", "status": "proved", "theorems": ["C35_source", "C35_text"], "note": "C32 and C34 composed, and C37 and C34 composed: sources over the elements of SpecLexeme and SpecText."},
 {"property": "C36", "status": "proved", "theorems": ["C36_strings", "C36_raw", "C36_regexps", "C36_words"], "note": "Interpolations inside the content are not part of this claim."},
 {"property": "C37", "status": "proved", "theorems": ["C37_tokens"], "note": "Whole sources over the elements of SpecText: those of C32, and strings, symbols and shell literals with escapes and interpolations nested to any depth."}
]}
