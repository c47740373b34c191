{"id": "C01", "title": "parse terminates", "statement": "enolib.parse(text) always comes back (with a document or an exception): the line loop advances on every iteration, and following copies never runs forever.", "quantifier": "every input text, every reporter and locale", "why_tests_cant": "non-termination only shows on the input that triggers it; no finite sample excludes it", "anchors": ["python/enolib/analyzer.py:Analyzer.analyze", "python/enolib/analyzer.py:_tokenize_error_context", "python/enolib/resolver.py:Resolver.resolve"]}
{"id": "C02", "title": "parse fails only with ParseError", "statement": "enolib.parse(text) either returns a document or raises enolib.ParseError; no KeyError, TypeError, IndexError or other internal exception escapes.", "quantifier": "every input text, with the default reporter", "why_tests_cant": "crashes hide in unsampled combinations of constructs", "anchors": ["python/enolib/analyzer.py:Analyzer.analyze", "python/enolib/resolver.py:Resolver", "python/enolib/errors/parsing.py:Parsing"]}
{"id": "C03", "title": "line grammar is decided exactly", "statement": "Each instruction the parser recognises is the one given by the documented line grammar (comment, continuation, list item, multiline field, section, field, fieldset entry, copy, blank): the regular expression accepts a line as a construct exactly when the declarative description of that construct fits, with exactly those key, value, template and operator extents.", "quantifier": "every input text and every position in it", "why_tests_cant": "a backtracking regular expression with 28 groups has unboundedly many backtracking paths", "anchors": ["python/enolib/grammar_regex.py:Grammar.REGEX"]}
{"id": "C04", "title": "keys and values are the source text at their ranges", "statement": "For every element of a parsed document the reported key, value and template are exactly the characters of the input at the element's key, value and template ranges.", "quantifier": "every input text that analyses, every element, item, entry, continuation and comment", "why_tests_cant": "depends on every offset computation for every input", "anchors": ["python/enolib/analyzer.py:Analyzer.analyze", "python/enolib/lookup.py:lookup"]}
{"id": "C05", "title": "keys, values and templates are trimmed and single-line", "statement": "No key, single-line value, comment or template is empty, starts or ends with white space, or contains a line feed.", "quantifier": "every input text that analyses, every instruction", "why_tests_cant": "holds by lazy/greedy regex interaction for all white space mixes", "anchors": ["python/enolib/grammar_regex.py:Grammar", "python/enolib/analyzer.py:Analyzer.analyze"]}
{"id": "C06", "title": "ranges are well nested", "statement": "Every recorded range satisfies begin <= end, lies inside its instruction's line range, and the line range lies inside the input.", "quantifier": "every input text that analyses, every instruction and range", "why_tests_cant": "an offset that escapes the line needs a particular mix of white space and operators", "anchors": ["python/enolib/analyzer.py:Analyzer.analyze"]}
{"id": "C07", "title": "no line is lost or read twice", "statement": "The line ranges of the instructions of a parsed document, in order, together with blank lines and the separating line feeds, tile the input: nothing is skipped and nothing is read twice.", "quantifier": "every input text that analyses", "why_tests_cant": "requires reasoning over whole documents of any length", "anchors": ["python/enolib/analyzer.py:Analyzer.analyze"]}
{"id": "C08", "title": "line numbers are true", "statement": "The line number attached to an element (used in error messages, selections and lookup) is the number of line feeds before it in the input.", "quantifier": "every input text that analyses, every instruction", "why_tests_cant": "an off-by-one appears only after particular constructs", "anchors": ["python/enolib/analyzer.py:Analyzer.analyze", "python/enolib/grammar_regex.py:Grammar.SECTION", "python/enolib/grammar_regex.py:Grammar.LATE_DETERMINED"]}
{"id": "C09", "title": "sections nest by operator length", "statement": "A section line with n operators becomes a child of the latest open section of depth n-1 (the document for n = 1); the parse fails with the hierarchy error exactly when n exceeds the current depth by more than one.", "quantifier": "every sequence of sections of any depth", "why_tests_cant": "depth bookkeeping must be right for every sequence of openings", "anchors": ["python/enolib/analyzer.py:Analyzer.analyze"]}
{"id": "C10", "title": "list items and fieldset entries attach only to a matching element", "statement": "A list item is accepted exactly when the latest non-section element of the current section is a list or still empty, a fieldset entry exactly when it is a fieldset or still empty, and it is appended there; otherwise the parse fails with the corresponding error.", "quantifier": "every document prefix", "why_tests_cant": "depends on the whole history of preceding lines", "anchors": ["python/enolib/analyzer.py:Analyzer.analyze"]}
{"id": "C11", "title": "continuations attach to the latest continuable element", "statement": "A continuation line is accepted exactly when a field, list item, fieldset entry or empty element is still open for continuation, and is appended to that element only.", "quantifier": "every document prefix", "why_tests_cant": "depends on the whole history of preceding lines", "anchors": ["python/enolib/analyzer.py:Analyzer.analyze"]}
{"id": "C12", "title": "multiline fields are verbatim", "statement": "The value of a multiline field is exactly the input between its opening line and the first later line that repeats the same operator and key (trimmed); None exactly when there is no line between; the parse fails with the unterminated error exactly when no such line exists.", "quantifier": "every input text, every multiline field", "why_tests_cant": "arbitrary content, including look-alike terminators", "anchors": ["python/enolib/analyzer.py:Analyzer.analyze", "python/enolib/context.py:Context.value"]}
{"id": "C13", "title": "comments belong to the element right below", "statement": "A block of comment lines becomes the comment of the element that follows immediately; a blank line or a continuation in between detaches it; comments of no element stay available to reporters.", "quantifier": "every document", "why_tests_cant": "depends on the history of preceding lines", "anchors": ["python/enolib/analyzer.py:Analyzer.analyze"]}
{"id": "C14", "title": "print/parse round trip", "statement": "Parsing the canonical text of any document built from empty elements, fields, lists, fieldsets, multiline fields and nested sections gives back exactly that document through raw().", "quantifier": "every document tree of any size and depth with well-formed keys and values", "why_tests_cant": "an infinite family of documents", "anchors": ["python/enolib/analyzer.py:Analyzer.analyze", "python/enolib/context.py:Context.raw"]}
{"id": "C15", "title": "continuation values are joined correctly", "statement": "The value of a field, item or entry with continuations is the concatenation of its present parts, with one space before a part exactly when it, or an empty continuation since the previous part, is spaced.", "quantifier": "every sequence of continuations", "why_tests_cant": "sequences of any length", "anchors": ["python/enolib/context.py:Context.value"]}
{"id": "C16", "title": "reading values is repeatable", "statement": "Reading a value, comment, items or entries any number of times, in any order, returns the same result as the first time.", "quantifier": "every document and every sequence of reads", "why_tests_cant": "memoised state makes results history dependent", "anchors": ["python/enolib/context.py:Context.value", "python/enolib/context.py:Context.comment", "python/enolib/context.py:Context.items", "python/enolib/context.py:Context.entries"]}
{"id": "C17", "title": "raw() is repeatable", "statement": "raw() called twice on the same document gives the same result.", "quantifier": "every document", "why_tests_cant": "memoised state after an exception", "anchors": ["python/enolib/context.py:Context.raw", "python/enolib/context.py:Context.elements"]}
{"id": "C18", "title": "comment text removes exactly the shared indentation", "statement": "The text of a multi-line comment drops leading and trailing empty comment lines, removes the indentation shared by its lines and keeps the rest; reading any comment never fails.", "quantifier": "every comment block", "why_tests_cant": "arbitrary indentation mixes", "anchors": ["python/enolib/context.py:Context.comment"]}
{"id": "C19", "title": "template lookup is unambiguous", "statement": "A copy resolves to the unique element of that key (sections for section copies, non-sections otherwise, an element copying its own name excluded), anywhere in the document; two or more candidates make the parse fail with the ambiguity error.", "quantifier": "every document with copies", "why_tests_cant": "whole-document uniqueness", "anchors": ["python/enolib/resolver.py:Resolver.index"]}
{"id": "C20", "title": "unknown templates are reported", "statement": "If a copied element exists nowhere in the document, the parse fails with the not-found ParseError for it.", "quantifier": "every document with copies", "why_tests_cant": "order dependent", "anchors": ["python/enolib/resolver.py:Resolver.resolve"]}
{"id": "C21", "title": "copy cycles are reported", "statement": "If copies form a cycle the parse fails with the cyclic dependency ParseError, and never otherwise; in particular it never loops.", "quantifier": "every copy graph", "why_tests_cant": "graphs of any size", "anchors": ["python/enolib/resolver.py:Resolver.resolve_non_section_element", "python/enolib/resolver.py:Resolver.resolve_section", "python/enolib/errors/parsing.py:Parsing.cyclic_dependency"]}
{"id": "C22", "title": "a copied field has its template's value", "statement": "A non-section element that copies a field, multiline field, list or fieldset and adds nothing yields the same value, items or entries as the template, through chains of copies of any length.", "quantifier": "every copy chain", "why_tests_cant": "chains of any length", "anchors": ["python/enolib/resolver.py:Resolver.consolidate_non_section_elements", "python/enolib/resolver.py:Resolver.mirror", "python/enolib/context.py:Context.value"]}
{"id": "C23", "title": "an extended list appends", "statement": "The items of a list that copies another list and adds items are the template's items followed by its own, in order.", "quantifier": "every copy chain of lists", "why_tests_cant": "chains of any length", "anchors": ["python/enolib/context.py:Context.items", "python/enolib/elements/list.py:List._instantiate_items"]}
{"id": "C24", "title": "an extended fieldset overrides by key", "statement": "The entries of a fieldset that copies another one are the template's entries whose key it does not define, followed by its own, in order.", "quantifier": "every copy chain of fieldsets", "why_tests_cant": "chains of any length, duplicate keys", "anchors": ["python/enolib/context.py:Context.entries", "python/enolib/elements/fieldset.py:Fieldset._instantiate_entries"]}
{"id": "C25", "title": "an extended section overrides by key", "statement": "The elements of a section that copies another one are its own elements plus the template's elements whose key it does not define.", "quantifier": "every section copy chain", "why_tests_cant": "chains of any length, duplicate keys", "anchors": ["python/enolib/elements/section.py:Section._instantiate_elements", "python/enolib/context.py:Context.elements"]}
{"id": "C26", "title": "section queries terminate after parse", "statement": "Once parse has returned, asking any section for its elements terminates.", "quantifier": "every document that parses", "why_tests_cant": "needs the copy graph to be acyclic for every document", "anchors": ["python/enolib/resolver.py:Resolver.consolidate_sections", "python/enolib/elements/section.py:Section._instantiate_elements"]}
{"id": "C27", "title": "raw() and the element API agree", "statement": "raw() lists the same elements, entries and items, in the same order, as the elements(), entries() and items() accessors.", "quantifier": "every document that parses", "why_tests_cant": "two separate implementations of the same merge", "anchors": ["python/enolib/context.py:Context.raw", "python/enolib/elements/section.py:Section._instantiate_elements"]}
{"id": "C28", "title": "single-element queries decide by count and type", "statement": "section.field(key) (and element, empty, fieldset, list, section) returns the element if exactly one with that key exists and has an accepted type, a missing element / None / an error when there is none according to the required flags, and raises a ValidationError when there are several or the type does not fit.", "quantifier": "every section state, key and flag", "why_tests_cant": "product of counts, types and flags", "anchors": ["python/enolib/elements/section.py:Section._field", "python/enolib/elements/section.py:Section._section"]}
{"id": "C29", "title": "plural queries are complete and ordered", "statement": "section.fields(key) (lists, fieldsets, sections, elements) returns exactly the elements with that key in document order, or raises a ValidationError if one has another type.", "quantifier": "every section and key", "why_tests_cant": "any number of elements", "anchors": ["python/enolib/elements/section.py:Section.fields", "python/enolib/elements/section.py:Section.elements"]}
{"id": "C30", "title": "absence is blamed on the outermost missing element", "statement": "Requiring anything below a missing section or fieldset raises the ValidationError for the outermost missing element on the path; optional accessors below it return None or an empty list and never raise.", "quantifier": "every path of missing elements of any depth", "why_tests_cant": "paths of any length", "anchors": ["python/enolib/elements/missing/*.py", "python/enolib/elements/section.py:Section._missing_error"]}
{"id": "C31", "title": "an element is yielded as one kind only", "statement": "Once an element was yielded as one kind (empty, field, fieldset, list), asking for another kind raises TypeError; asking for the same kind returns the identical object.", "quantifier": "every sequence of yields", "why_tests_cant": "history dependent", "anchors": ["python/enolib/elements/section_element.py:SectionElement.to_field"]}
{"id": "C32", "title": "assert_all_touched reports exactly what was not touched", "statement": "assert_all_touched raises for a document exactly if some element (respecting only/skip) was not touched; what is reported was in fact never touched.", "quantifier": "every document and access history", "why_tests_cant": "history dependent", "anchors": ["python/enolib/elements/section.py:Section.assert_all_touched", "python/enolib/elements/section_element.py:SectionElement._untouched"]}
{"id": "C33", "title": "touch() touches everything", "statement": "After section.touch(), assert_all_touched() on it does not raise.", "quantifier": "every section and access history", "why_tests_cant": "history dependent", "anchors": ["python/enolib/elements/section.py:Section.touch", "python/enolib/elements/section_element.py:SectionElement.touch"]}
{"id": "C34", "title": "all_elements_required reaches every subsection", "statement": "After document.all_elements_required(), every missing query in the document or any of its sections and fieldsets raises, however and whenever the section is obtained.", "quantifier": "every document and access history", "why_tests_cant": "history dependent", "anchors": ["python/enolib/elements/section.py:Section.all_elements_required", "python/enolib/elements/fieldset.py:Fieldset.all_entries_required"]}
{"id": "C35", "title": "loader errors become located ValidationErrors", "statement": "If a value, key or comment loader raises ValueError the caller sees a ValidationError carrying that message; any other result or exception of the loader passes through unchanged; the loader is called exactly with the text of the value, key or comment.", "quantifier": "every loader and every element", "why_tests_cant": "loaders are arbitrary functions", "anchors": ["python/enolib/elements/value_element_base.py:ValueElementBase._value", "python/enolib/elements/element_base.py:ElementBase.key"]}
{"id": "C36", "title": "lookup rejects exactly the out-of-range positions", "statement": "lookup raises IndexError exactly for indices outside 0..len(input) and lines outside 0..line_count-1; every other position gives a result.", "quantifier": "every input text that parses, every index/line", "why_tests_cant": "every position", "anchors": ["python/enolib/lookup.py:lookup"]}
{"id": "C37", "title": "lookup finds the innermost element at an index", "statement": "lookup(index=i) returns the element whose instructions' line range contains i, the innermost one, or the enclosing section when no instruction is there.", "quantifier": "every input text that parses, every index", "why_tests_cant": "every position in every document", "anchors": ["python/enolib/lookup.py:check_in_section_by_index"]}
{"id": "C38", "title": "line and index lookup agree", "statement": "lookup by line/column and lookup by the corresponding index return the same element and range.", "quantifier": "every input text that parses, every position", "why_tests_cant": "two separate implementations", "anchors": ["python/enolib/lookup.py:check_in_section_by_line", "python/enolib/lookup.py:check_in_section_by_index"]}
{"id": "C39", "title": "the range reported by lookup contains the index", "statement": "If lookup reports a range name, that range of the found instruction contains the index.", "quantifier": "every input and index", "why_tests_cant": "every position", "anchors": ["python/enolib/lookup.py:lookup"]}
{"id": "C40", "title": "selections lie inside the document", "statement": "Every error's selection points into the document: from <= to, index = start of its line + column, and both indices are at most len(input).", "quantifier": "every input text and every raised error", "why_tests_cant": "every error path", "anchors": ["python/enolib/errors/selections.py", "python/enolib/errors/parsing.py", "python/enolib/errors/validation.py"]}
{"id": "C41", "title": "error reports always print", "statement": "Building an enolib error (ParseError or ValidationError) for any element of any document succeeds with every reporter.", "quantifier": "every document, element and reporter", "why_tests_cant": "every combination of element types", "anchors": ["python/enolib/reporters/reporter.py:Reporter", "python/enolib/reporters/terminal_reporter.py"]}
{"id": "C42", "title": "snippets show the source lines", "statement": "Every numbered line of a text snippet shows the corresponding source line of the input.", "quantifier": "every error report", "why_tests_cant": "arbitrary documents", "anchors": ["python/enolib/reporters/text_reporter.py", "python/enolib/reporters/reporter.py:Reporter._build_index"]}
{"id": "C43", "title": "snippets show reported lines with context", "statement": "A snippet shows every line that was reported, the two lines before and after each, and an omission marker instead of the rest.", "quantifier": "every tag assignment", "why_tests_cant": "any number of lines", "anchors": ["python/enolib/reporters/reporter.py:Reporter.snippet"]}
{"id": "C44", "title": "HTML reports are escaped", "statement": "Text from the document or the caller can not introduce markup into an HTML report.", "quantifier": "every input and source label", "why_tests_cant": "arbitrary content", "anchors": ["python/enolib/reporters/html_reporter.py"]}
{"id": "C45", "title": "locale and reporter do not change the outcome", "statement": "Whether parse succeeds, and with which document, or which kind of error with which selection, does not depend on the locale or source label.", "quantifier": "every input, locale and source label", "why_tests_cant": "any locale", "anchors": ["python/enolib/context.py", "python/enolib/errors/parsing.py"]}
{"id": "C46", "title": "registered loaders behave like explicit ones", "statement": "After register(name=f), the accessors optional_/required_<name>_value, _values, _comment and <name>_key behave exactly like the generic accessor called with f; on missing elements like the string accessors; other names are unaffected.", "quantifier": "every name, function and sequence of registrations", "why_tests_cant": "any registration sequence", "anchors": ["python/enolib/register.py"]}
{"id": "C47", "title": "errors do not depend on the history of access", "statement": "The error an element builds (error, key_error, value_error, comment_error) depends only on the document, the element and the message: calling any other API operations before does not change its text, snippet or selection.", "quantifier": "every document, element, message and sequence of earlier calls", "why_tests_cant": "histories are unbounded", "anchors": ["python/enolib/elements/element_base.py", "python/enolib/errors/validation.py", "python/enolib/context.py"]}
{"id": "C48", "title": "a copy is what its template is", "statement": "In a parsed document a copied non-section element without content of its own has the type of what it copies (a copied multiline field is a field); a copy with items or entries of its own has the type of its template unless that is empty; sections, items and entries keep their type. Entries added to a copy of a field or list and items added to a copy of a field or fieldset are never accepted; if nothing else is wrong with the copies, the missing-fieldset or missing-list error is raised for one of them, on its line.", "quantifier": "every input, chain of copies, locale, source label", "why_tests_cant": "chains of copies are unbounded and may refer forwards and backwards", "anchors": ["python/enolib/resolver.py"]}
{"id": "C49", "title": "a copy has its own comment or else its template's", "statement": "In a parsed document an element with a comment of its own keeps exactly that; a copied element without one has the comment of what it copies, if any, through any chain of copies; other elements have none. A section's comment is its own or that of a section it copies or is merged with.", "quantifier": "every input and chain of copies", "why_tests_cant": "chains of copies are unbounded", "anchors": ["python/enolib/resolver.py"]}
{"id": "C50", "title": "every document can be written canonically", "statement": "What raw() gives for a parsed document can always be written as a canonical text (no copies, continuations, blank lines or stray spaces; sections after the other elements), provided no section takes over sections by copying; parsing that text succeeds and raw() gives the same again.", "quantifier": "every input, state of the API, locale, reporter, source label", "why_tests_cant": "documents are unbounded trees with chains of copies", "anchors": ["python/enolib/analyzer.py", "python/enolib/resolver.py", "python/enolib/context.py"]}
{"id": "C51", "title": "printed objects show what they are", "statement": "repr() of an object of the element API names its class, its key, and the number of its elements, entries or items, or its value cut off after eleven characters if it has more than fourteen. Printing never counts as a use and shows the same text at any time. What is missing is printed as the class and the key that were asked for.", "quantifier": "every document, every sequence of API calls, every object", "why_tests_cant": "any document and any history", "anchors": ["python/enolib/elements/section.py:18-22", "python/enolib/elements/fieldset.py:14-15", "python/enolib/elements/list.py:7-8", "python/enolib/elements/value_element_base.py:6-15", "python/enolib/elements/element.py:10-11", "python/enolib/elements/missing/missing_section.py:9-13"]}
{"id": "C52", "title": "parent() is the object that handed it out", "statement": "parent() of an object is the very object that handed it out, at any later time, and lists it among its members.", "quantifier": "every document, every sequence of API calls, every object", "why_tests_cant": "any document and any history", "anchors": ["python/enolib/elements/section.py:384-388", "python/enolib/elements/fieldset.py:117-118", "python/enolib/elements/list.py:54-55", "python/enolib/elements/field.py:34-35", "python/enolib/elements/list_item.py:9-10"]}
{"id": "C53", "title": "the ranges of an instruction make up its line", "statement": "For every document that can be analysed, the ranges recorded for an instruction, comment, continuation or line of a multiline field (operators, key, value, template, comment), in order and with white space between and around them, are the whole line; every visible character of the line belongs to exactly one of them.", "quantifier": "every input text without parse error in the analysis, every instruction", "why_tests_cant": "infinitely many lines; tests look at a few ranges", "anchors": ["python/enolib/analyzer.py:33-460", "python/enolib/grammar_regex.py:1-99"]}
{"id": "C54", "title": "all reporters show the same", "statement": "The choice of reporter makes no difference to which documents are accepted, nor to the message and selection of an error; the plain text, HTML and terminal forms of a report show the same rows (line numbers, marks, contents, omissions), except that the terminal form does not exist (KeyError) when the line of a deep copy is among them.", "quantifier": "every input, locale, source label, complaint; every parse error", "why_tests_cant": "tests compare snapshots of a few reports for each reporter", "anchors": ["python/enolib/reporters/reporter.py:1-217", "python/enolib/reporters/text_reporter.py:1-40", "python/enolib/reporters/html_reporter.py:1-45", "python/enolib/reporters/terminal_reporter.py:1-94"]}
{"id": "C55", "title": "what error reports show and mark", "statement": "The report of an error about an element marks its first line as the error and the lines of all it contains, with those between, as belonging to it; a report about a missing element marks the section and questions what its elements contain up to the first subsection; errors about comments, keys, values, several elements and each parse error mark the lines they are about; no line has two marks. Shown are the marked lines, the two lines before each and the two behind each but the first line of the text (see C43), with their recorded contents, and an ellipsis before each group and at the end; if nothing is marked everything is questioned.", "quantifier": "every input, locale, reporter, source label, complaint about any element in a parsed document; every parse error", "why_tests_cant": "snapshots of a few reports cannot show which lines are marked for all trees, gaps and nestings", "anchors": ["python/enolib/reporters/reporter.py:60-217", "python/enolib/errors/validation.py:1-143", "python/enolib/errors/parsing.py:1-133"]}
{"id": "C56", "title": "lines are read without regard to what follows", "statement": "If a text can be read and also the text followed by a line feed and further lines, the instructions of the first text are the same in both, in number, order, contents and ranges, except that elements still open may have got further items, entries, continuations and elements, and everything new stands behind. If only the whole cannot be read the error is located behind the first text. Errors of the first text stay, whatever follows, unless the line is no instruction or a multiline field is unended (these can be undone by what follows; a line that is no instruction stays so if anything visible but `<` stands behind it). White space at the end changes neither instructions nor any answer.", "quantifier": "every text, every continuation of it, every history of accesses", "why_tests_cant": "every pair of texts would have to be tried; scanning uses one regular expression with unbounded look-ahead over white space and a search for the end of multiline fields", "anchors": ["python/enolib/analyzer.py:22-325", "python/enolib/grammar_regex.py:1-99", "python/enolib/context.py:15-195"]}
{"id": "C57", "title": "layout and escaping do not matter", "statement": "Two texts with the same instructions - the same keys, values, templates, operators and comments in the same order, apart from white space around them, escaping of keys with backticks, the number of dashes of multiline fields, the position of a block of comments as a whole, blank lines (except between a comment and its element) and comments that belong to no element - are both accepted or both rejected for the same reason, and all values, comments, items, entries, elements and raw() of them are the same, in whatever order they are read. Every document has exactly one such list of instructions.", "quantifier": "every two texts, every locale, reporter and source label, every history of accesses", "why_tests_cant": "every pair of layouts of every document would have to be compared", "anchors": ["python/enolib/analyzer.py:22-469", "python/enolib/grammar_regex.py:1-99", "python/enolib/resolver.py:1-169", "python/enolib/context.py:15-195"]}
{"id": "C58", "title": "programs see the same whatever the layout, locale and reporter", "statement": "A program that uses the API on two documents with the same instructions (apart from layout, escaping, blank lines, detached comments), or on one document under another locale, reporter or source label, gets the same results and the same exceptions in both; errors are about the same elements and have the same message in the same locale.", "quantifier": "every program, every pair of documents that say the same, every locale, reporter and label", "why_tests_cant": "relates two runs of arbitrary programs on arbitrarily many texts", "anchors": ["python/enolib/elements/section.py:Section", "python/enolib/elements/section_element.py:SectionElement", "python/enolib/elements/element_base.py:ElementBase", "python/enolib/context.py:Context", "python/enolib/errors/validation.py"]}
{"id": "C59", "title": "Windows line endings", "statement": "A text whose line feeds all have a carriage return before them is accepted exactly if the text without these carriage returns is, and rejected for the same reason otherwise. Its instructions and comments are the same, except that the value of a multiline field keeps the carriage returns of its lines, the one of its last line included. All values, comments, items, entries, elements and raw() are the same apart from carriage returns in values, in whatever order they are read; without multiline values they are exactly the same.", "quantifier": "every text, every locale, reporter and source label, every history of accesses", "why_tests_cant": "relates the two readings of every text; white space, keys, closing lines and positions are matched by different regular expressions", "anchors": ["python/enolib/grammar_regex.py:1-99", "python/enolib/analyzer.py:22-469", "python/enolib/context.py:15-195"]}
{"id": "C60", "title": "keys are only compared, values are only passed on", "statement": "Two texts whose instructions are the same except that every key has another name (different keys having different names) and that values differ in what is not observed of them (an observation of a text being determined by observations of its parts: the text itself, its length, nothing, ...) are accepted together or rejected for the same reason. In accepted ones every value, comment, item, entry, element and raw() is the same under these names and observations, in whatever order they are read. In particular which texts are accepted, what is copied and which element an element is merged with depends on keys only through their equality and on values only through their presence.", "quantifier": "every renaming, every observation, every pair of such texts, every locale, reporter and source label, every history of accesses", "why_tests_cant": "a statement about two executions on arbitrary pairs of documents, for every renaming and observation (parametricity)", "anchors": ["python/enolib/analyzer.py:22-469", "python/enolib/resolver.py:1-169", "python/enolib/context.py:15-195"]}
{"id": "C61", "title": "programs follow renamed keys", "statement": "If the keys of a document are renamed (different keys having different names) and its values changed in what is not observed of them, then a program with its keys renamed in the same way has the same outcome: related results (the same objects, the same names of keys, values observed to be the same), the same exceptions, or the same complaint about the same elements with the renamed key.", "quantifier": "every renaming and observation, every pair of such documents, every pair of programs making the same calls under either names, every locale, reporter and source label", "why_tests_cant": "relates two runs of arbitrary programs on arbitrarily many pairs of documents", "anchors": ["python/enolib/elements/section.py:Section", "python/enolib/elements/fieldset.py:Fieldset", "python/enolib/elements/list.py:List", "python/enolib/elements/section_element.py:SectionElement", "python/enolib/elements/element_base.py:ElementBase", "python/enolib/elements/missing/missing_section.py:MissingSection", "python/enolib/context.py:Context"]}
{"id": "C62", "title": "error messages say what is wrong", "statement": "Every error message is the locale's text for one sort of mistake, filled with the line and the key (or the program's message) of what the error reports; in English, German and Spanish no two different mistakes, lines or keys share a message, and the message contains the line and the key. A line is said to have an unterminated escaped key exactly when it opens a key with backticks that it does not close again, and then the selection begins behind the backticks.", "quantifier": "every text and document, every fault and complaint, every line number and every key or message text (also one that itself reads like part of a message), the three shipped locales, every reporter and source label", "why_tests_cant": "that messages never coincide quantifies over all pairs of mistakes with arbitrary keys and lines; the pattern for unterminated keys quantifies over all lines", "anchors": ["python/enolib/messages/en.py:cyclic_dependency", "python/enolib/messages/de.py:cyclic_dependency", "python/enolib/messages/es.py:cyclic_dependency", "python/enolib/errors/parsing.py:Parsing.UNTERMINATED_ESCAPED_KEY", "python/enolib/errors/parsing.py:Parsing", "python/enolib/errors/validation.py:Validation"]}
{"id": "C63", "title": "the exceptions programs have to reckon with", "statement": "A call on an element of a parsed document fails only with a validation error about that document, with what the loader given to the call raises, with a KeyError or a TypeError, or, for all_elements_required() and parent() only, with an AttributeError; it fails to come back only if it goes through sections and the links of copied sections do not end (nothing is said about raw() there). It never fails with a parse error, an IndexError or an UnboundLocalError. What is asked of missing elements fails with a validation error or as building one fails, and with an AttributeError only for what is missing in a fieldset; the error constructors give an error, a KeyError or a TypeError. Reading values, comments (not a single empty comment line) and keys (with a loader: not of list items, and not of the document) fails only with a validation error or with what the loader raises, except for the terminal reporter on documents with deep copies. Where the sections of a document can be shown in reports and the links of copied sections end, asking for elements, entries and items, and assert_all_touched() of sections, fail only with a validation error, or with a TypeError for an element that was read as something else before.", "quantifier": "every text, every state a program can reach by any sequence of calls, every method and argument, every loader, every locale, reporter and source label", "why_tests_cant": "quantifies over all documents, sessions and loaders; absence of an exception cannot be tested", "anchors": ["python/enolib/errors/validation.py:Validation.missing_value", "python/enolib/errors/validation.py:Validation.unexpected_multiple_elements", "python/enolib/elements/section.py:Section", "python/enolib/elements/fieldset.py:Fieldset", "python/enolib/elements/value_element_base.py:ValueElementBase", "python/enolib/elements/element_base.py:ElementBase", "python/enolib/elements/missing/missing_element_base.py:MissingElementBase"]}
{"id": "C64", "title": "what programs hold stays what it is", "statement": "No call of the API changes the parsed document: input, settings and every field of every instruction stay the same, except for remembered answers. An object handed out stays there for the same instruction and below the same object, with the members and readings it was asked for, and what was used stays used, whatever is called afterwards and whether or not the calls raise. Below an object there is at most one object of a class for an instruction, however it was asked for.", "quantifier": "every text, every state a program can reach by any sequence of calls, every further sequence of calls, every locale, reporter and source label", "why_tests_cant": "quantifies over all documents and all call sequences, including calls that raise half way", "anchors": ["python/enolib/elements/section.py:Section", "python/enolib/elements/section_element.py:SectionElement", "python/enolib/elements/fieldset.py:Fieldset", "python/enolib/elements/list.py:List", "python/enolib/context.py:Context"]}
