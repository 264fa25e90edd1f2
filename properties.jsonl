{"id": "C01", "title": "Tokenising always terminates", "statement": "For every source text, Lexer::tokens() stops after finitely many steps: it returns a token vector or the process aborts; it never loops or recurses forever, whatever the nesting of strings, interpolations, word arrays, regexps and heredocs.", "quantifier": "all byte strings (any length, any bytes including NUL and non-ASCII)", "why_tests_cant": "Non-termination is about every input; heredoc bodies are re-lexed by a nested lexer, so no finite set of samples bounds the work.", "anchors": ["src/lexer.cpp: Lexer::tokens, Lexer::next_token, Lexer::build_next_token, Lexer::consume_heredoc", "src/lexer/*.cpp"]}
{"id": "C02", "title": "Shape of the token vector", "statement": "Whenever tokens() returns, the vector is non-empty, its last element is either the Eof token or an error token (one whose type_value() is null), and every earlier element is neither: an error is always last and the vector is never silently truncated.", "quantifier": "all byte strings on which tokens() returns", "why_tests_cant": "The parser indexes the vector assuming this shape; a violating input would be a rare interaction of nested lexers.", "anchors": ["src/lexer.cpp: Lexer::tokens", "include/natalie_parser/token.hpp: Token::is_valid"]}
{"id": "C03", "title": "Comments never reach the caller", "statement": "The token vector returned by tokens() contains no Comment and no Doc token.", "quantifier": "all byte strings on which tokens() returns", "why_tests_cant": "Must hold through every nested-lexer path, also for comments inside interpolations.", "anchors": ["src/lexer.cpp: Lexer::tokens"]}
{"id": "C04", "title": "Newline collapsing", "statement": "In the returned vector no Newline token stands immediately after a token that can precede a collapsible newline (binary operators, comma, opening brackets, ...) nor immediately before a token that can follow one (dot, closing brackets, then, ternary colon, safe navigation).", "quantifier": "all byte strings on which tokens() returns", "why_tests_cant": "Relational statement about all adjacent pairs of all outputs.", "anchors": ["src/lexer.cpp: Lexer::tokens", "include/natalie_parser/token.hpp: can_follow_collapsible_newline, can_precede_collapsible_newline"]}
{"id": "C05", "title": "Doc comments attach only to definitions", "statement": "A token of the returned vector carries a doc only if it is a class, module or def keyword, and no other token ever carries one.", "quantifier": "all byte strings on which tokens() returns", "why_tests_cant": "Negative statement over all outputs.", "anchors": ["src/lexer.cpp: Lexer::tokens", "include/natalie_parser/token.hpp: can_have_doc, set_doc"]}
{"id": "C06", "title": "The lexer never reads outside its input", "statement": "Every character the lexer examines is at an offset below the length of the string it is lexing (the source or a heredoc body), even though the cursor itself may run past the end.", "quantifier": "all byte strings, all points of a tokens() run, all nested lexers", "why_tests_cant": "A memory-safety statement over every execution; a sanitizer only sees executed samples.", "anchors": ["include/natalie_parser/lexer.hpp: current_char, peek", "src/lexer.cpp: Lexer::match, Lexer::advance, Lexer::consume_heredoc"]}
{"id": "C07", "title": "Source positions are the cursor position of a source offset", "statement": "At every point of a run the (line, column) of every lexer that reads the source text itself equals the number of newlines before, and the distance from the last newline to, its current offset; so each token produced outside heredoc bodies has line/column equal to those of some source offset, and rewinding never crosses a line start.", "quantifier": "all byte strings, all points of a tokens() run", "why_tests_cant": "Line/column bookkeeping is incremental and spread over dozens of advance/rewind call sites and copied between nested lexers.", "anchors": ["src/lexer.cpp: advance, rewind, next_token", "src/lexer/*.cpp"]}
{"id": "C08", "title": "The tokenizer aborts only for an over-long code point and overflows only in $N", "statement": "tokens() never aborts except on a \\u{...} escape whose value is at least 0x200000, and performs no signed overflow except in a numbered reference $N beyond 2^63-1. (The unconditional claim 'tokens() never aborts / has no undefined behaviour' is refuted.)", "quantifier": "all byte strings", "why_tests_cant": "Abort-freedom over all inputs.", "anchors": ["src/lexer.cpp: utf32_codepoint_to_utf8, consume_nth_ref, consume_escaped_byte"]}
{"id": "C09", "title": "Decimal integer literals denote their value", "statement": "A source consisting of a decimal literal (digits, single underscores between digits, no leading zero) tokenises to exactly one number token: Fixnum with the literal's value when it is at most 2^62-1, otherwise Bignum whose text is the digits without underscores.", "quantifier": "all digit sequences of any length", "why_tests_cant": "Unbounded lengths, exact boundary at 2^62-1.", "anchors": ["src/lexer.cpp: consume_numeric, chars_to_fixnum_or_bignum_token"]}
{"id": "C10", "title": "Radix-prefixed integer literals denote their value", "statement": "0x\u2026, 0o\u2026, 0b\u2026, 0d\u2026 and bare-octal 0\u2026 literals tokenise to a Fixnum with the literal's value when it fits in 2^62-1, otherwise a Bignum whose text, read as a Ruby integer, has that value. (Refuted for bare octal bignums, whose text repeats the first digit and loses the leading 0, and for 0d literals with leading zeros, whose text is then read as octal.)", "quantifier": "all digit sequences in the respective base, any length", "why_tests_cant": "Unbounded lengths in five bases.", "anchors": ["src/lexer.cpp: consume_numeric", "ext/natalie_parser/mri_creator.hpp: append_bignum"]}
{"id": "C11", "title": "Single-quoted strings round-trip", "statement": "For every byte string s without NUL, quoting s (backslash before ' and \\) and tokenising it yields exactly one String token whose literal is s.", "quantifier": "all NUL-free byte strings of any length", "why_tests_cant": "Round-trip over all contents.", "anchors": ["src/lexer.cpp: consume_single_quoted_string"]}
{"id": "C12", "title": "Double-quoted strings round-trip", "statement": "For every non-empty NUL-free byte string s, writing it between double quotes with \", \\ and # escaped tokenises to dstr, one String token whose literal is s, dstrend.", "quantifier": "all NUL-free byte strings of any length", "why_tests_cant": "Round-trip over all contents.", "anchors": ["src/lexer/interpolated_string_lexer.cpp: consume_string", "src/lexer.cpp: consume_escaped_byte"]}
{"id": "C13", "title": "UTF-8 encoding of \\u escapes", "statement": "For every code point below 0x200000 the bytes appended by a \\u escape are the standard UTF-8 form (1-4 bytes) and decode back to that code point; distinct code points give distinct byte sequences.", "quantifier": "all code points 0..0x1FFFFF", "why_tests_cant": "Arithmetic over all values, bit masks.", "anchors": ["src/lexer.cpp: utf32_codepoint_to_utf8"]}
{"id": "C14", "title": "Numeric escapes read the right digits", "statement": "In a double-quoted string \\ooo reads one to three octal digits, \\xhh one or two hex digits, \\uhhhh up to four, \\u{\u2026} up to six per code point, each giving the value of exactly those digits (mod 256 for bytes) and leaving the following text untouched.", "quantifier": "all digit strings and all following texts", "why_tests_cant": "Greedy/limit behaviour over all continuations.", "anchors": ["src/lexer.cpp: consume_octal_number, consume_hex_number, consume_escaped_byte"]}
{"id": "C15", "title": "Identifiers are not split", "statement": "A source that is an identifier (letter/underscore/non-ASCII start, then identifier characters) that is not a keyword tokenises to exactly one BareName (or Constant if it starts with A-Z) whose literal is the whole identifier; in particular an identifier beginning with a keyword is not split.", "quantifier": "all identifiers of any length", "why_tests_cant": "All words, 40 keyword prefixes.", "anchors": ["src/lexer.cpp: build_next_token, match, consume_bare_name_or_constant"]}
{"id": "C16", "title": "Keywords are recognised exactly", "statement": "At a position where no method name is expected, a keyword text followed by a character that is not an identifier character, ?, ! or : yields that keyword token and consumes exactly that text.", "quantifier": "all keywords, all following texts", "why_tests_cant": "All continuations.", "anchors": ["src/lexer.cpp: build_next_token, match"]}
{"id": "C17", "title": "Literal delimiters are properly nested", "statement": "In the returned vector the begin/end tokens of strings, symbols, shell strings, regexps, word arrays and #{\u2026} are properly nested and each end matches its begin whenever the vector ends in Eof. (Refuted for %W/%I arrays with two interpolations in one word; proved for the rest.)", "quantifier": "all byte strings on which tokens() returns an Eof-terminated vector", "why_tests_cant": "Dyck-language statement over all outputs.", "anchors": ["src/lexer/*.cpp", "src/lexer.cpp: next_token"]}
{"id": "C18", "title": "Unterminated literals are reported", "statement": "A source whose last string, symbol, regexp, word array or heredoc literal has no terminator never tokenises to an Eof-terminated vector. (Refuted for :'\u2026 , %s(\u2026 and for #{ inside heredocs; proved for single- and double-quoted strings, regexps, word arrays.)", "quantifier": "all byte strings", "why_tests_cant": "Every unterminated content.", "anchors": ["src/lexer.cpp: build_next_token (case ':'), consume_percent_symbol, consume_single_quoted_string", "src/lexer/*.cpp"]}
{"id": "C19", "title": "Interpolated code is tokenised as the same code at top level", "statement": "The tokens between #{ and } are those of the same code at top level. (Refuted as such: regexp/division, heredoc/shift, symbol keys and imaginary suffixes depend on a last-token memory that nested lexers never update; a string inside braces inside an interpolation is reported unterminated.) Proved: code whose reading does not depend on the token before it gives, between \"#{ and }\", the same tokens as at top level, in everything but line and column, apart from collapsed newlines.", "quantifier": "all such code texts, with strings and interpolations nested in them to any depth", "why_tests_cant": "Metamorphic property over all code.", "anchors": ["src/lexer.cpp: next_token, tokens (m_last_token)", "include/natalie_parser/lexer/interpolated_string_lexer.hpp"]}
{"id": "C20", "title": "Heredoc terminator and body", "statement": "A heredoc ends at the first line consisting of (optional indentation for <<- and <<~ and) the identifier; its body is the text of the lines before it. (Refuted as such: with <<-/<<~ a body line merely ending in white space and the identifier ends the heredoc, and a tab before the identifier stays in the body.) Proved: if no body line is the identifier or (for <<-/<<~) ends in white space and the identifier, the value is the body's text, dedented for <<~; the rest of the opening line is lexed next and lexing goes on after the closing line.", "quantifier": "all identifiers, all bodies", "why_tests_cant": "All bodies.", "anchors": ["src/lexer.cpp: consume_heredoc, is_valid_heredoc"]}
{"id": "C21", "title": "Squiggly heredocs are dedented", "statement": "<<~ removes from every line the smallest indentation of the non-blank lines and changes nothing else. (Refuted for bodies with two or more blank lines and no text: an unsigned wrap-around duplicates newlines.) Proved when some line is non-blank.", "quantifier": "all bodies", "why_tests_cant": "Unsigned wrap-around; all line structures.", "anchors": ["src/lexer.cpp: get_heredoc_indent, dedent_heredoc"]}
{"id": "C22", "title": "Regexp and shell literals keep their text", "statement": "A regexp literal whose text contains no delimiter, backslash, # or NUL tokenises to dregx, String with that text, dregxend carrying exactly the option letters that follow.", "quantifier": "all such texts and option letter sequences", "why_tests_cant": "All contents.", "anchors": ["src/lexer/regexp_lexer.cpp"]}
{"id": "C23", "title": "Word arrays split on whitespace", "statement": "%w[\u2026] over words without whitespace, backslash, NUL or delimiters tokenises to %w[, one String token per word in order, ].", "quantifier": "all lists of words, any separators", "why_tests_cant": "All lists.", "anchors": ["src/lexer/word_array_lexer.cpp: consume_array"]}
{"id": "C24", "title": "Leading blanks only shift columns", "statement": "Putting spaces or tabs in front of a source that does not begin with =begin, a byte-order mark or << changes nothing in the token vector except columns on the first line and the first token's whitespace flag; an abort stays the same abort.", "quantifier": "all such byte strings, any number of blanks", "why_tests_cant": "Metamorphic relation between two runs on unboundedly many pairs of inputs.", "anchors": ["src/lexer.cpp: skip_whitespace, next_token"]}
{"id": "C25", "title": "Every parse ends in a tree or a SyntaxError", "statement": "Parser::tree() on any source terminates and either returns a tree or throws SyntaxError; it does not abort. (Refuted by concrete sources that abort.)", "quantifier": "all byte strings", "why_tests_cant": "All inputs.", "anchors": ["src/parser.cpp: Parser::tree, parse_expression, parse_interpolated_body", "include/natalie_parser/parser.hpp"]}
{"id": "C26", "title": "The parser stays inside the token vector and consumes all of it", "statement": "The parser never moves before the first or beyond the last token, never pops an empty stack and never reads the literal of a token that has none; a successful parse ends exactly at the end-of-file token, having passed all the source's tokens in order (newlines aside, which the parser may put back).", "quantifier": "all sources", "why_tests_cant": "All executions.", "anchors": ["src/parser.cpp: current_token, previous_token, peek_token, advance, rewind"]}
{"id": "C27", "title": "Operator precedence and associativity", "statement": "Parsing an expression built from names, numbers, constants like nil, parentheses and the unary and binary operators gives the tree of Ruby's operator table (tighter operators first, equal ones to the left), consumes exactly the expression, and does so in every state of the parser. (Refuted for three forms, where the parser departs from Ruby: a ** b ** c is grouped to the left, a <=> b < c groups <=> first, not a && b negates a only. Proved for all expressions without these forms.)", "quantifier": "all expressions of any depth grouped by Ruby's table, all parser states", "why_tests_cant": "All trees.", "anchors": ["src/parser.cpp: get_precedence, higher_precedence, parse_expression, parse_infix_expression"]}
{"id": "C28", "title": "and/or and &&/|| grouping", "statement": "Chains of && and || (and of and/or) group as Ruby specifies: && tighter than ||, and/or equal and left-associative; the regrouping done while building the nodes keeps every operand in order. (Refuted: chains are not nested uniformly; from four operands on the second and third form a group of their own.)", "quantifier": "all chains of any length", "why_tests_cant": "All chains.", "anchors": ["src/parser.cpp: parse_logical_expression, regroup", "src/parser.cpp: get_precedence"]}
{"id": "C29", "title": "Parser bookkeeping is balanced", "statement": "After a successful parse of any expression the precedence stack and the call-depth stack are as before it. (Refuted: an early return in parse_body leaks a call-depth entry.)", "quantifier": "all token vectors", "why_tests_cant": "All executions.", "anchors": ["src/parser.cpp: parse_body, parse_expression"]}
{"id": "C30", "title": "Local variables are scoped to their definition", "statement": "A bare name parses as a local variable exactly when it was assigned or is a parameter in the same scope: def, class and module bodies start a fresh scope, loops share the scope they are in, blocks see the outer scope and their own variables end with them. (Refuted for the parameters of ->(x) {}, which stay in sight behind the lambda.)", "quantifier": "all programs of assignments, methods with parameters, classes, modules, loops, blocks and operator expressions, nested to any depth", "why_tests_cant": "All programs.", "anchors": ["src/parser.cpp: parse_identifier, parse_assignment_expression, parse_def, parse_class, parse_module, parse_while, parse_iter_expression, parse_def_single_arg, tree"]}
{"id": "C31", "title": "A text behind a newline keeps its tokens", "statement": "When the lexer stands at the beginning of a line outside of every literal, the rest of the run yields exactly the tokens the rest of the source has on its own, moved down by the number of lines before it (provided the rest's first token is not a newline, a token that continues the previous line, or a regular expression). Whole-source form: an identifier line in front of any such text. (Refuted for a leading regular expression: /#{def /}/ lexes differently behind another line.)", "quantifier": "all texts, all positions in all sources, all token vectors collected before", "why_tests_cant": "Compositionality is a relation between two runs for unboundedly many pairs of texts.", "anchors": ["src/lexer.cpp: tokens, next_token, build_next_token", "src/lexer/regexp_lexer.cpp"]}
{"id": "C32", "title": "A text has exactly the tokens its words stand for", "statement": "A source composed of names (with ?, ! and setter =), constants, keywords, integers in every radix, floats with and without exponent, character literals, every operator and bracket, @ivars, @@cvars, $gvars, special globals, $1 and $&, symbols of names, operators and variables, hash keys, single-quoted strings, newlines and comments, separated by any blanks or continued lines, lexes to exactly the tokens of these elements: type, literal, integer value, line, column and whitespace flag each correct, longest match for operators, keywords as names behind def, dot and ::, newlines dropped exactly behind a token that opens a line and in front of one that closes it. (Refuted where Ruby allows an operator directly behind a name: x!=1, :a==b, A::B==1, A::B.c==1, def foo a=1.)", "quantifier": "all sequences of these elements of any length in which each element may stand where it stands (explicit conditions of fits)", "why_tests_cant": "Every pair of neighbouring elements in every lexer state, in texts of unbounded length.", "anchors": ["src/lexer.cpp: tokens, next_token, build_next_token, consume_word, consume_bare_name, consume_constant, consume_numeric, consume_global_variable, consume_symbol, consume_single_quoted_string, match", "include/natalie_parser/token.hpp: can_precede_collapsible_newline, can_follow_collapsible_newline"]}
{"id": "C33", "title": "Layout does not change the tokens", "statement": "Two such texts with the same elements apart from comments, blanks and continued lines give token vectors that agree in everything but line, column and whitespace flag.", "quantifier": "all pairs of such texts", "why_tests_cant": "A relation between unboundedly many pairs of texts.", "anchors": ["src/lexer.cpp: tokens, next_token, skip_whitespace, build_next_token"]}
{"id": "C34", "title": "The tokens of a program parse to the meaning of the program", "statement": "A program built from literals, names, constants, parentheses, unary and binary operators with Ruby's levels, ternaries, assignments and operator assignments to variables, attributes (also with &.) and elements, arrays and hashes (also with splats), method calls with and without parentheses (positional arguments, splats, hash arguments, double splats and block-pass arguments, trailing commas excluded), safe navigation, indexing, constant paths, blocks with all kinds of parameters, if/elsif/else, unless, while/until, modifiers, case/when/else, def (also def self.x) with all kinds of parameters, class, module, class <<, lambdas without parameters, defined?(), for, begin with rescue, else and ensure, return/break/next/redo/retry, yield and super (also without parentheses), alias and undef of one name (an operator as a symbol), $1 and $&, __ENCODING__, and of strings, symbols and shell commands with interpolated code of any depth parses without error, and the resulting s-expression is, up to source positions and the nesting of && and || chains, the meaning the program has by structural recursion: operands in order and correctly grouped, arguments and parameters in order, every name resolved as local variable or call by the assignments and parameters before it, bodies scoped, documentation comments attached. Two readings of the same tokens have the same meaning. (Refuted for: while with an operator condition and do; a modifier behind and/or or behind a modifier; nested assignments in argument lists; (a; b) while c; a bare return in front of a closing token; a local variable as superclass; an empty else of case; 1 + x = 5; foo *b; f(*a || b); begin x end and rescue E then b on one line; (begin ... rescue ... end) while c; a rescue b if c; code inside a string inside a string inside a string; a do block behind a command with a rescued method as its argument; the scope of the parameters of a lambda and of the body of class <<.)", "quantifier": "all programs of this grammar, of any size and nesting, all token positions and documentation comments", "why_tests_cant": "Parsing to the right tree is a statement about unboundedly many nested combinations of constructs; tests cover a few combinations of depth two or three.", "anchors": ["src/parser.cpp: tree, parse_expression, parse_body, every parse function of these constructs, get_precedence", "include/natalie_parser/node/*.hpp: transform"]}
{"id": "C35", "title": "Source texts parse to the meaning of the program they spell", "statement": "A source text that spells such a program (words, numbers, operators, symbols, strings, keys, comments and blanks as in C32, interpolated literals as in C37) is parsed by NatalieParser.parse, from bytes to s-expression, to the meaning of the program.", "quantifier": "all such texts, whatever their layout", "why_tests_cant": "End-to-end correctness over all programs and layouts.", "anchors": ["ext/natalie_parser/natalie_parser.cpp: parse_on_instance", "src/lexer.cpp", "src/parser.cpp"]}
{"id": "C36", "title": "Balanced brackets do not end a bracketed literal", "statement": "In %(..), %Q, %x, %q, %s, %r and %w/%W/%i/%I literals delimited by (), [], {} or <>, the same brackets may occur unescaped in the content as long as they balance: the literal ends at the matching bracket, the inner brackets are bytes of the content, escaped brackets do not count, and in word arrays the count runs over all the words.", "quantifier": "all contents mixing characters, escapes and balanced brackets, of any nesting depth", "why_tests_cant": "Depth and position of the brackets are unbounded; tests nest once or not at all.", "anchors": ["src/lexer/interpolated_string_lexer.cpp", "src/lexer/regexp_lexer.cpp", "src/lexer/word_array_lexer.cpp", "src/lexer.cpp: consume_single_quoted_string"]}
{"id": "C37", "title": "Texts with interpolated strings have the tokens of their parts, to any depth", "statement": "A text made of words, numbers, punctuation, symbols, single-quoted strings, newlines and comments (as in C32) and of double-quoted strings, %() and %Q strings, quoted symbols and shell literals, with escapes and with interpolated code that again contains such literals, gives the tokens these elements stand for, in order: the opening token, the text between interpolations, a token for each #{, the tokens of the code, a token for each }, the closing token, every one with its line, column and whitespace flag. Braces inside the code are matched: the interpolation ends at the brace that closes it. (Excluded, and refuted elsewhere: a literal inside braces inside interpolated code.)", "quantifier": "all such texts, with literals nested in interpolations to any depth", "why_tests_cant": "Depth, order and contents are unbounded; the state of one lexer per level has to be resumed at the right place.", "anchors": ["src/lexer.cpp: next_token, build_next_token", "src/lexer/interpolated_string_lexer.cpp", "include/natalie_parser/lexer.hpp: Lexer(other, start_char, stop_char)"]}
