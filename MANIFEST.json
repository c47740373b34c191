{"claims": [
 {"property": "C01", "status": "proved", "theorems": ["C01_parse_terminates", "C01_loop_advances"], "note": ""},
 {"property": "C02", "status": "partial", "theorems": ["C02_missing_chain_refuted", "C02_section_cycle_refuted", "C02_only_parse_errors_partial", "C02_line_errors"], "note": "false as stated (KeyError for a copy of a copy of something missing, UnboundLocalError for a cycle of uncopied sections); proved without these two situations"},
 {"property": "C03", "status": "proved", "theorems": ["C03_line_grammar_decided", "C03_closing_line_decided"], "note": "regex engine on the transcribed grammar = declarative scanner"},
 {"property": "C04", "status": "proved", "theorems": ["C04_texts_are_source"], "note": ""},
 {"property": "C05", "status": "proved", "theorems": ["C05_texts_trimmed"], "note": ""},
 {"property": "C06", "status": "proved", "theorems": ["C06_ranges_nested"], "note": ""},
 {"property": "C07", "status": "proved", "theorems": ["C07_lines_tile"], "note": ""},
 {"property": "C08", "status": "partial", "theorems": ["C08_line_numbers_partial", "C08_line_numbers_refuted", "C08_line_count_refuted", "C08_distinct", "C08_accounting", "C08_right_exactly"], "note": "false as stated: white space before an operator may cross line feeds. Exactly: every number, and the line count, is short by the line feeds inside earlier instructions, hence right if and only if none of them stretches over several lines; in any document the numbers are distinct, below the line count, and in text order"},
 {"property": "C09", "status": "proved", "theorems": ["C09_document_is_tree", "C09_sections_nest", "C09_fields_attach", "C09_copies_attach"], "note": ""},
 {"property": "C10", "status": "proved", "theorems": ["C10_items_attach", "C10_entries_attach", "C10_errors_only_there"], "note": ""},
 {"property": "C11", "status": "proved", "theorems": ["C11_continuations_attach", "C10_errors_only_there"], "note": ""},
 {"property": "C12", "status": "proved", "theorems": ["C12_multiline_verbatim", "C12_multiline_terminated"], "note": ""},
 {"property": "C13", "status": "proved", "theorems": ["C13_comments_belong"], "note": ""},
 {"property": "C19", "status": "proved", "theorems": ["C19_copies_found", "C19_ambiguity_reported", "C21_copy_errors_real"], "note": ""},
 {"property": "C20", "status": "partial", "theorems": ["C20_not_reported_refuted", "C20_never_accepted", "C20_unknown_template_partial", "C21_copy_errors_real"], "note": "false as stated: the error is not raised when the missing template is reached through another copy; such documents never parse, and the error is raised if there are no other faults"},
 {"property": "C21", "status": "partial", "theorems": ["C21_not_reported_refuted", "C20_never_accepted", "C21_cycle_reported_partial", "C21_copy_errors_real"], "note": "false as stated: a cycle through sections that are no copies is an UnboundLocalError; otherwise cycles are reported, and only cycles"},
 {"property": "C45", "status": "proved", "theorems": ["C45_labels_do_not_matter"], "note": ""},
 {"property": "C43", "status": "partial", "theorems": ["C43_context_refuted", "C43_context_partial", "C43_nothing_reported"], "note": "false as stated: no context is shown after a reported first line; exact with that exception"},
 {"property": "C44", "status": "partial", "theorems": ["C44_label_refuted", "C44_document_escaped_partial", "C44_escape_lossless"], "note": "false as stated: the source label is not escaped; proved for everything that comes from the document"},
 {"property": "C15", "status": "proved", "theorems": ["C15_value_joined", "C15_one_value", "C15_accessors"], "note": "for Context.value and for the accessors of objects in every session"},
 {"property": "C16", "status": "proved", "theorems": ["C16_same_answer", "C16_accessors", "C16_list_values", "C31_same_members"], "note": "after any sequence of questions, including failing raw() calls; through objects: in any two states of any sessions"},
 {"property": "C17", "status": "partial", "theorems": ["C17_raw_twice_refuted", "C17_raw_again_partial", "C17_always_the_same_partial", "C17_documents_partial", "C17_earlier_calls_refuted"], "note": "False: a second raw() after an exception returns a truncated result, and where links of sections go round in circles the result depends on earlier calls. Proved: if raw() returned, it returns the same again; where the links of sections end, raw() of the document returns the same in all states or in none; of any element if moreover no section is mirrored."},
 {"property": "C18", "status": "partial", "theorems": ["C18_never_fails_refuted", "C18_kept_indentation_refuted", "C18_comment_text_partial", "C18_one_text", "C35_comment"], "note": "false as stated: a single empty comment raises KeyError, and kept indentation is rebuilt with spaces; otherwise exact, also through objects (C35_comment)"},
 {"property": "C22", "status": "proved", "theorems": ["C22_bare_copies", "C22_values", "C22_one_value"], "note": ""},
 {"property": "C23", "status": "proved", "theorems": ["C23_list_appends", "C23_items", "C23_one_list"], "note": ""},
 {"property": "C24", "status": "proved", "theorems": ["C24_fieldset_overrides", "C24_entries", "C24_entry"], "note": ""},
 {"property": "C28", "status": "partial", "theorems": ["C28_single_query", "C28_single_entry", "C28_one_list", "C28_wrong_type_refuted"], "note": "Exact outcome of every single query in every reachable state, whether or not the copies of sections end; the claim that a wrong type raises ValidationError is false for sections whose report can not be built (TypeError)."},
 {"property": "C29", "status": "partial", "theorems": ["C29_plural_query", "C29_elements", "C29_entries", "C29_items", "C29_wrong_type_refuted"], "note": "Exact outcome of every plural query in every reachable state; the error for a wrong type is not always a ValidationError."},
 {"property": "C30", "status": "partial", "theorems": ["C30_outermost_blamed", "C30_later", "C30_path", "C30_optional", "C30_required_values_refuted", "C30_read_as"], "note": "The outermost missing element is blamed for any chain of queries; required_values of a missing list returns an empty list instead of raising."},
 {"property": "C31", "status": "proved", "theorems": ["C31_one_kind", "C31_same_object", "C31_same_objects", "C31_same_members"], "note": ""},
 {"property": "C35", "status": "partial", "theorems": ["C35_value", "C35_one_value", "C35_values", "C35_comment", "C35_key", "C35_message", "C35_item_key_refuted", "C35_empty_comment_refuted"], "note": "Outcome of loaders for every element; false for keys of list items and for empty comments, where the report raises KeyError."},
 {"property": "C47", "status": "proved", "theorems": ["C47_errors_fixed"], "note": ""},
 {"property": "C25", "status": "partial", "theorems": ["C25_own_then_copied_partial", "C25_one_list", "C25_merged_partial", "C25_merged_total_partial", "C25_merged_one", "C25_one_heir", "C25_deep_copy_refuted"], "note": "Own elements then the not redefined ones of the section taken over. For plain copies that is the template, for chains of any length; for sections in deep copies it is the section the outermost copy around it pairs it with. This describes every section if no section takes over its own elements. The statement as given is false with deep copies: a merged subsection forgets the template it names itself."},
 {"property": "C26", "status": "partial", "theorems": ["C26_terminates_refuted", "C26_terminates_iff_partial", "C26_terminates_partial", "C26_links_end_partial", "C26_no_deep_sections"], "note": "Section queries do not terminate for some documents with deep copies; exact condition for termination, and no deep copies suffice."},
 {"property": "C27", "status": "partial", "theorems": ["C27_order_refuted", "C27_mirrored_refuted", "C27_mirrored_fails", "C27_described", "C27_only_described_partial", "C27_document_partial", "C27_one_description", "C27_all_described_partial", "C27_returned_partial", "C27_document_returned", "C27_grounded", "C27_then_all_partial", "C27_items", "C27_entries", "C27_elements_partial", "C27_same_elements_partial"], "note": "Items and entries agree; elements agree up to order, and in order for sections that are no copies; false for the order of extended sections and for mirrored sections (TypeError, in every state). If no section shows itself by copying and containing others, raw() of the document returns exactly if no section is nothing but a copy and no comment is empty; none does so if no deep copy contains a section. If it returned (and the links of sections end), raw() of every element returns."},
 {"property": "C32", "status": "proved", "theorems": ["C32_exactly_the_unused", "C32_not_both", "C32_used", "C32_entries", "C32_entries_refuted"], "note": "Exact for sections of any document after any sequence of API calls, and the touched flag is tied to the calls that use an object. Fieldset.assert_all_touched raises TypeError instead of a ValidationError (refuted, exact condition proved). Never ending links between copied sections lead to RecursionError (named in the statement)."},
 {"property": "C33", "status": "partial", "theorems": ["C33_refuted", "C33_after_touch_partial"], "note": "False: touch() does not reach elements that were not read yet. Proved: after touch() assert_all_touched() passes exactly if everything had been read as something."},
 {"property": "C34", "status": "partial", "theorems": ["C34_refuted", "C34_fieldset_refuted", "C34_succeeds", "C34_required_partial"], "note": "False: AttributeError on sections not read yet; fieldsets without entries read earlier do not get the flag. Proved: exact condition of success, and after success every query without a result raises in all other sections and fieldsets inside, for all later call sequences."},
 {"property": "C36", "status": "partial", "theorems": ["C36_index", "C36_line_partial", "C36_no_column", "C36_no_column_refuted"], "note": "Complete for indices and for line with column; lookup(line=...) without column raises TypeError whenever something is on the line (exactly described)."},
 {"property": "C37", "status": "partial", "theorems": ["C37_index_exact", "C37_innermost_partial", "C37_on_a_line_partial", "C37_last_item_refuted", "C37_no_instruction_refuted"], "note": "Exact result for every index; the stated property fails behind the own line of a last list item / fieldset entry and between items."},
 {"property": "C38", "status": "partial", "theorems": ["C38_agree_partial", "C38_comment_refuted", "C38_several_lines_refuted"], "note": "Agreement for every position of documents whose instructions are on one line each, up to the range of document comments; both exceptions are witnessed."},
 {"property": "C39", "status": "proved", "theorems": ["C39_index", "C39_index_and_line", "C39_line"], "note": "Every reported range contains the index."},
 {"property": "C40", "status": "partial", "theorems": ["C40_parse", "C40_complaints", "C40_calls", "C40_missing", "C40_made", "C40_line_refuted", "C40_exact_parse_partial", "C40_exact_partial", "C40_accounting_parse", "C40_accounting"], "note": "Selections of all errors lie inside the text with from <= to and columns counted from the beginning of a line; the line number is right for documents whose instructions contain no line feed, and witnessed wrong otherwise: in any document it is short by exactly the line feeds inside earlier instructions."},
 {"property": "C41", "status": "partial", "theorems": ["C41_gap_refuted", "C41_comment_refuted", "C41_item_refuted", "C41_document_refuted", "C41_deep_copy_refuted", "C41_terminal_parse_refuted", "C41_exactly_partial", "C41_terminal_partial", "C54_rows", "C54_failures", "C02_line_errors", "C02_only_parse_errors_partial"], "note": "False as stated. Exactly which errors about parsed documents can be reported is proved for the text and HTML reporters; the terminal reporter reports the same ones except, with KeyError, those that show the line of a deep copy (C54_rows, C54_failures). Errors of the analysis are always made with the text and HTML reporters (C02_line_errors)."},
 {"property": "C42", "status": "partial", "theorems": ["C42_comment_refuted", "C42_number_refuted", "C42_past_refuted", "C42_complaint_partial", "C42_call_partial", "C42_parse_partial", "C42_numbers"], "note": "False as stated: pending comments are left out of reports of parse errors, line numbers are wrong behind instructions over several lines, and an unterminated multiline field on the last line adds a line. Proved: for all other documents and all three reporters, every numbered row of a snippet shows the source line with that number (in the terminal with styles around parts of it), or nothing where that line is blank (parse errors: blank or a comment)."},
 {"property": "C46", "status": "partial", "theorems": ["C46_string_refuted", "C46_empty_refuted", "C46_registers", "C46_accessors_partial", "C46_plain_partial", "C46_missing_partial", "C46_no_accessor_partial", "C46_others", "C46_apart", "C46_only_two"], "note": "Method tables with Python's lookup along the classes. False for two names, shown by witnesses: \"string\" (values of fields keep the built-in accessor) and the empty name (overwrites _key: keys can not be read any more). For every other name and sequence of registrations, and for these two wherever no method of the library is met, the accessors are those with the loader, in every state of every session; missing elements; all other attributes stay."},
 {"property": "C48", "status": "proved", "theorems": ["C48_types", "C48_one_meaning", "C48_copies_agree", "C48_strays_fail", "C48_strays_reported"], "note": "Types of copies after resolution; stray entries and items."},
 {"property": "C49", "status": "proved", "theorems": ["C49_comments", "C49_one_comment", "C49_section_sources", "C49_every_section", "C49_one_remark"], "note": "Elements exactly, for any chain of copies; sections: own comment or that of a section copied or merged with, for every document. Which one: exact outside deep copies, and inside them (the innermost copy that gives one) if no section takes over its own elements."},
 {"property": "C14", "status": "proved", "theorems": ["C14_round_trip", "C14_one_text"], "note": "Documents are values of the type raw() returns. Keys: any trimmed text; values of fields: any text or none; items and entries: trimmed or none; comments: as eno can express them. Canonical text quotes ambiguous keys and writes other field values as blocks."},
 {"property": "C50", "status": "proved", "theorems": ["C50_documents", "C50_rewritten", "C50_without_copies", "C50_can_be_rewritten", "C50_section_copies_refuted"], "note": "For every document in which no section takes over a section by copying, in every state: what raw() gives is in the class of documents of C14, hence canonical text, parse and raw() give it back. Without that proviso the claim is false (witness)."},
 {"property": "C51", "status": "partial", "theorems": ["C51_shown", "C51_always_the_same", "C51_one_text", "C51_endless", "C51_missing", "C51_looked_up_refuted", "C32_used"], "note": "Exact text of every object in every reachable state; sections with an endless chain of links (C26) can not be printed (C51_endless); missing elements (C51_missing). That printing is not a use is C32_used with the call Print. False for list items and the document when found by lookup: they have no key and repr() raises KeyError."},
 {"property": "C52", "status": "partial", "theorems": ["C52_parent_partial", "C52_queried", "C52_queried_entry", "C52_listed_item", "C52_member", "C52_sections", "C52_section_refuted", "C52_looked_up"], "note": "False as stated for sections (parent() is None), for the document (KeyError) and for what lookup found (a new section object each time, or AttributeError); proved for everything else that is handed out below another object."},
 {"property": "C53", "status": "proved", "theorems": ["C53_ranges_make_up_lines", "C53_each_character"], "note": "For every analysed input and every instruction, comment, continuation and multiline line."},
 {"property": "C54", "status": "proved", "theorems": ["C54_documents", "C54_rows", "C54_failures", "C54_parse_errors"], "note": "For all documents and all complaints. The terminal form is missing exactly where a deep copy would be shown; for parse errors it is the same rows or KeyError."},
 {"property": "C55", "status": "proved", "theorems": ["C55_complaints", "C55_one_mark", "C55_parse_errors", "C55_one_fault_mark"], "note": "Exact rows and marks for every complaint and parse error."},
 {"property": "C56", "status": "proved", "theorems": ["C56_beginning_kept", "C56_later_errors", "C56_errors_stay", "C56_invalid_lines_stay", "C56_errors_undone_refuted", "C56_blank_end"], "note": "on the analysis of all pairs of texts; blank ends also for the resolved document and all histories of reading accesses"},
 {"property": "C57", "status": "proved", "theorems": ["C57_same_document", "C57_same_faults", "C57_every_document", "C57_written", "C57_written_same", "C57_every_text", "C57_broken_faults"], "note": "instructions are those of the declarative line grammar (Scan, which C03 proves to be the regular expression's); texts with a line that is no instruction or an unended multiline field say nothing and are not compared; complaints about lines that became no element are compared by kind only. SpecWritten is a grammar producing layouts (all but those with the backticks of an escaped key inside the key)"},
 {"property": "C58", "status": "proved", "theorems": ["C58_programs", "C58_labels", "C58_messages"], "note": "for every program over the API, including ones that catch exceptions; positions and snippets differ, the complaint and its message do not"},
 {"property": "C59", "status": "proved", "theorems": ["C59_instructions", "C59_same_document", "C59_accepted", "C59_exact", "C59_same_faults", "C59_programs"], "note": "crlf t is t with a carriage return before every line feed; multiline values keep them, including the one of their last line (finding)"},
 {"property": "C60", "status": "proved", "theorems": ["C60_same_document", "C60_accepted", "C60_same_faults", "C60_broken_faults"], "note": "For every pair of renamings of keys and every observation of values; both texts given by their instructions (tells / tells_until, which every text has by C57_every_text)."},
 {"property": "C61", "status": "proved", "theorems": ["C61_programs"], "note": "Programs are related pairs of monadic computations (SpecRenamed.paired) covering every API call; what repr prints is not related. Both texts given by their instructions."},
 {"property": "C62", "status": "proved", "theorems": ["C62_apart", "C62_mentions", "C62_parse", "C62_open_key", "C62_validation", "C62_same_words"], "note": "messages are injective in (sort, line, key) in en, de and es; parse errors and validation errors have the words of their notice; unterminated escaped keys characterised exactly. The two complaints carrying the program's own words only (element_error, unexpected_element with a message) are stated separately."},
 {"property": "C63", "status": "proved", "theorems": ["C63_calls", "C63_missing", "C63_made", "C63_reading", "C63_asking", "C63_presentable"], "note": "raw() may also end with the model's fuel; outside C63_reading and C63_asking, KeyError and TypeError are listed without saying when each of them occurs (C23-C46 do for single calls)"},
 {"property": "C64", "status": "proved", "theorems": ["C64_document", "C64_objects", "C64_one_object"], "note": "one object per instruction is stated for parents whose chain of links ends (C26), which is every fieldset and list"}
]}
