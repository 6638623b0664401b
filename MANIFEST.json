{
 "claims": [
  {
   "property": "C01",
   "status": "proved",
   "theorems": [
    "C01_programs",
    "C01_named_programs",
    "C01_expressions_agree",
    "C01_select_calls_agree",
    "C01_insert_calls_agree",
    "C01_update_calls_agree",
    "C01_delete_calls_agree",
    "C01_text_independent_of_values",
    "C01_named_text_independent_of_values",
    "C01_arguments_follow_values",
    "C01_comparison_value",
    "C01_in_values",
    "C01_between_values",
    "C01_set_value",
    "C01_insert_values"
   ],
   "note": "Statement level for all statements, and program level: any two programs that make the same calls and differ only in the values they pass as values (at any depth: conditions, subqueries, CTEs, SET, VALUES, ON CONFLICT, RETURNING) agree call by call (alike results or the same panic), produce the same text from Query and NamedQuery, and bind corresponding values."
  },
  {
   "property": "C02",
   "status": "proved",
   "theorems": [
    "C02_placeholders_match_arguments"
   ],
   "note": "The template is the same for all three renderings; arguments equal an independent left-to-right traversal."
  },
  {
   "property": "C03",
   "status": "proved",
   "theorems": [
    "C03_named_arguments",
    "C03_named_panics_with_query"
   ],
   "note": ""
  },
  {
   "property": "C04",
   "status": "proved",
   "theorems": [
    "C04_string_is_query_with_literals",
    "C04_string_panics_with_query"
   ],
   "note": "String() also panics exactly when a driver.Valuer among the arguments returns an error."
  },
  {
   "property": "C05",
   "status": "proved",
   "theorems": [
    "C05_nil_is_never_bound",
    "C05_nil_operand_is_null"
   ],
   "note": ""
  },
  {
   "property": "C06",
   "status": "proved",
   "theorems": [
    "C06_subquery_is_contiguous",
    "C06_positions"
   ],
   "note": "For every rendered position at any depth."
  },
  {
   "property": "C07",
   "status": "proved",
   "theorems": [
    "C07_quoting_is_injective"
   ],
   "note": "For every byte string and any printable-character table."
  },
  {
   "property": "C08",
   "status": "proved",
   "theorems": [
    "C08_postgres_reads_the_given_name",
    "C08_exactly_the_plain_names"
   ],
   "note": "An equivalence: exactly the plain names are read back."
  },
  {
   "property": "C09",
   "status": "partial",
   "theorems": [
    "C09_identifiers_can_inject_refuted",
    "C09_double_quote_breaks_out_refuted",
    "C09_without_double_quote_partial",
    "C09_exactly_partial"
   ],
   "note": "False as stated: a double quote in a name is escaped with a backslash, which PostgreSQL does not read as an escape (refuted, with the exact reading of such names). C09_exactly_partial is an equivalence: the quoted text is one dotted name that ends at its last character if and only if the name has no double quote and no empty part."
  },
  {
   "property": "C10",
   "status": "proved",
   "theorems": [
    "C10_string_literal_decodes",
    "C10_any_string_literal_is_closed",
    "C10_exactly_the_valid_strings"
   ],
   "note": "An equivalence for valid UTF-8; also proved for invalid UTF-8, where bad bytes become U+FFFD."
  },
  {
   "property": "C11",
   "status": "proved",
   "theorems": [
    "C11_structure_read_back",
    "C11_where_accepts",
    "C11_buildable"
   ],
   "note": "Conditions over names that PostgreSQL reads back and plain operands; read with either precedence, operand by operand, in the WHERE clause of Select, Update and Delete."
  },
  {
   "property": "C12",
   "status": "proved",
   "theorems": [
    "C12_condition_balanced",
    "C12_statement_balanced",
    "C12_embeds_anywhere",
    "C12_double_quote_refuted",
    "C12_calls_balanced"
   ],
   "note": "For all expressions and statements whose names have no double quote and whose verbatim texts are balanced; refuted without the hypothesis on names."
  },
  {
   "property": "C13",
   "status": "proved",
   "theorems": [
    "C13_chain_left_associated",
    "C13_where_again_is_and",
    "C13_needs_first",
    "C13_chain_read_back"
   ],
   "note": "Template level for arbitrary non-empty conditions, and read back as a tree for readable ones."
  },
  {
   "property": "C14",
   "status": "proved",
   "theorems": [
    "C14_and_narrows_or_widens"
   ],
   "note": "Stated on the trees read from the rendered texts."
  },
  {
   "property": "C15",
   "status": "partial",
   "theorems": [
    "C15_nonempty_conditions_kept_partial",
    "C15_empty_condition_drops_all",
    "C15_empty_first_condition_ignored",
    "C15_exactly_partial",
    "C15_condition_never_dropped_refuted"
   ],
   "note": "False as stated: an empty condition (nil, Raw of the empty string, Condition of the empty string) given to And or Or removes the whole WHERE clause (proved for all statements, with a DELETE witness). C15_exactly_partial gives, for every chain of calls, the WHERE clause that is left: the conditions since the last empty one."
  },
  {
   "property": "C16",
   "status": "proved",
   "theorems": [
    "C16_slice_is_elements",
    "C16_list_rendered",
    "C16_single_nil_refuted",
    "C16_nested_slice_refuted"
   ],
   "note": "One-element lists of nil or of a slice are outside the quantifier; they differ (refuted)."
  },
  {
   "property": "C17",
   "status": "proved",
   "theorems": [
    "C17_select_clauses",
    "C17_select_clauses_named",
    "C17_subquery_clauses"
   ],
   "note": ""
  },
  {
   "property": "C18",
   "status": "proved",
   "theorems": [
    "C18_reordered_calls",
    "C18_reordered_calls_same_sql",
    "C18_distinct_on_after_group_by_refuted"
   ],
   "note": "DistinctOn is grouped with GroupBy, and Suffix and Prefix with Offset; finer groups are refuted."
  },
  {
   "property": "C19",
   "status": "proved",
   "theorems": [
    "C19_select_clause_kept",
    "C19_insert_clause_kept",
    "C19_update_clause_kept",
    "C19_delete_clause_kept",
    "C19_from_and_group_by_set",
    "C19_limit_set",
    "C19_empty_having_refuted",
    "C19_select_refusal",
    "C19_insert_refusal",
    "C19_update_refusal",
    "C19_delete_refusal",
    "C19_other_messages_refuted"
   ],
   "note": "For the four builders; a Having without condition sets nothing and may be repeated (refuted)."
  },
  {
   "property": "C20",
   "status": "partial",
   "theorems": [
    "C20_second_call_overwrites_refuted",
    "C20_repeated_call_accepted_refuted",
    "C20_first_call_panics_refuted",
    "C20_guards_partial",
    "C20_exactly_partial"
   ],
   "note": "False as stated: DistinctOn tests GroupBy, Suffix and Prefix test Offset (refuted both ways, for all states). C20_exactly_partial says, for every chain of calls, when the three are accepted (no GroupBy; no Offset but 0) and that the last call of each decides the clause."
  },
  {
   "property": "C21",
   "status": "proved",
   "theorems": [
    "C21_limit_exact",
    "C21_offset_exact",
    "C21_accepted",
    "C21_uint_rejected_refuted",
    "C21_negative_limit_refuted"
   ],
   "note": "uint is not an accepted type, and a stmt.Limit or stmt.Offset argument is not checked (both refuted)."
  },
  {
   "property": "C22",
   "status": "proved",
   "theorems": [
    "C22_columns",
    "C22_items_exist",
    "C22_grouping",
    "C22_methods",
    "C22_select_string_slice_refuted",
    "C22_select_star_refuted",
    "C22_white_space"
   ],
   "note": "Select([]string) does not split or trim (refuted), and Select() quotes the star (refuted)."
  },
  {
   "property": "C23",
   "status": "proved",
   "theorems": [
    "C23_update",
    "C23_do_update"
   ],
   "note": "Update and DoUpdate; the assumed contract of sort.Slice is a hypothesis, met by Go's insertion sort (C23_contract)."
  },
  {
   "property": "C24",
   "status": "proved",
   "theorems": [
    "C24_sorted",
    "C24_canonical",
    "C24_iteration_order",
    "C24_string_keys_are_plain",
    "C24_colliding_keys_refuted"
   ],
   "note": "Canonical order, call order and map iteration order for unaliased columns; the case of two map keys that trim to the same column is refuted."
  },
  {
   "property": "C25",
   "status": "partial",
   "theorems": [
    "C25_rendering_twice_refuted",
    "C25_not_an_order_refuted",
    "C25_rendering_twice_partial",
    "C25_order_exactly_partial",
    "C25_agreeing_columns_partial"
   ],
   "note": "The full statement is false for columns whose names are in one order and their aliases in the other (two _refuted theorems). C25_order_exactly_partial: these are the only ones for which the comparison is not an order; for all others C25_agreeing_columns_partial proves the order and that rendering twice gives the same SQL."
  },
  {
   "property": "C26",
   "status": "proved",
   "theorems": [
    "C26_never_mixed",
    "C26_using_needs_columns",
    "C26_two_syntaxes",
    "C26_same_number_refuted"
   ],
   "note": "Mixing panics; every rendered UPDATE has one of the two forms with at least one value. That the two lists have the same length is refuted."
  },
  {
   "property": "C27",
   "status": "proved",
   "theorems": [
    "C27_columns_and_values",
    "C27_no_pairs_refuted",
    "C27_columns_panic"
   ],
   "note": "Columns and values are aligned; Insert.Set() without pairs renders VALUES () (refuted)."
  },
  {
   "property": "C28",
   "status": "proved",
   "theorems": [
    "C28_batch",
    "C28_single_row",
    "C28_one_slice",
    "C28_exceptions_refuted",
    "C28_row_lengths_refuted",
    "C28_extra_dropped_refuted"
   ],
   "note": "Batches, single rows and single slices; the exceptions in the quantifier are shown as refuted. C28_extra_dropped_refuted: what follows a batch in the call of Values is dropped without a panic."
  },
  {
   "property": "C29",
   "status": "proved",
   "theorems": [
    "C29_returns",
    "C29_accepts",
    "C29_panics",
    "C29_update_needs_target",
    "C29_no_target_before",
    "C29_empty_update_refuted"
   ],
   "note": "Returned clauses, accepted arguments, panics; an empty DoUpdate is silently dropped (refuted)."
  },
  {
   "property": "C30",
   "status": "proved",
   "theorems": [
    "C30_lexer_stops",
    "C30_nothing_is_lost",
    "C30_lexer_is_a_function_of_the_text",
    "C30_text_after_a_nul_is_dropped",
    "C30_text_with_nul_refuted",
    "C30_characters"
   ],
   "note": "The lexer of the code (two-rune window, read, skipWhitespace, readIdentifier, Next, Iterator) is modelled in Machine.v with step counts; len(s) steps are proved enough. Nothing is lost for every text without NUL (bytes that are not UTF-8 count as U+FFFD). Finding: a NUL byte ends the text."
  },
  {
   "property": "C31",
   "status": "proved",
   "theorems": [
    "C31_any_case",
    "C31_other_words",
    "C31_tokens",
    "C31_one_word",
    "C31_white_space",
    "C31_symbols",
    "C31_layout",
    "C31_layout_does_not_matter",
    "C31_words_need_white_space_refuted"
   ],
   "note": "lex is proved to be exactly the declarative relation scan (maximal words, keyword table restated in Scan.v); white space and layout theorems."
  },
  {
   "property": "C32",
   "status": "proved",
   "theorems": [
    "C32_reads_joins",
    "C32_reads_conditions",
    "C32_select_join",
    "C32_select_join_table",
    "C32_join_sql"
   ],
   "note": "For every layout of every text of the grammar in JoinSpec.v (any type, any chain of AND/OR, optional parentheses and semicolon), the parsed join, the builder after Join and the rendered SQL."
  },
  {
   "property": "C33",
   "status": "partial",
   "theorems": [
    "C33_never_panics_refuted",
    "C33_second_condition_dropped_refuted",
    "C33_rest_dropped_refuted",
    "C33_first_join_dropped_refuted",
    "C33_panics_partial",
    "C33_returns_partial",
    "C33_refuses_partial",
    "C33_panics_exactly_partial",
    "C33_reads_the_text_partial"
   ],
   "note": "The full claim is false: _refuted theorems give the index panic and the silently dropped text. Proved as three equivalences over a grammar of pieces (JoinScan): which texts return a join and what is dropped, which are refused, which panic. Also: the join contains only names of the text, in order. Texts of the grammar are read whole (C32)."
  },
  {
   "property": "C34",
   "status": "proved",
   "theorems": [
    "C34_errors_return_nothing",
    "C34_select_join_panics"
   ],
   "note": "Every error returns the zero join and the one error; Join panics with it."
  },
  {
   "property": "C35",
   "status": "partial",
   "theorems": [
    "C35_select",
    "C35_select_chain",
    "C35_update_partial",
    "C35_update_chain_partial",
    "C35_update_refuted",
    "C35_update_any_columns",
    "C35_insert",
    "C35_insert_chain"
   ],
   "note": "Proved for Select (all growth policies) and Insert, with the chain of calls behind each builder. For Update the claim is false: a Set changes what its receiver prints (C35_update_refuted); proved when a builder is not rendered after a call on it. Delete methods only assign fields of the copy."
  },
  {
   "property": "C36",
   "status": "proved",
   "theorems": [
    "C36_select",
    "C36_select_versions",
    "C36_update"
   ],
   "note": "Any fork tree with calls other than Join, OrderBy, With over linearly built builders; general form by versions; Update forks with calls other than Set, Using, With."
  },
  {
   "property": "C37",
   "status": "partial",
   "theorems": [
    "C37_join_refuted",
    "C37_order_refuted",
    "C37_with_refuted",
    "C37_spare_capacity_refuted",
    "C37_set_changes_base_refuted",
    "C37_set_loses_column_refuted",
    "C37_failed_set_refuted",
    "C37_set_empty_refuted",
    "C37_select_exactly_partial",
    "C37_joins_exactly_partial",
    "C37_joins_doubling_partial",
    "C37_update_exactly_partial",
    "C37_update_receiver_kept",
    "C37_concurrent_refuted"
   ],
   "note": "False: witnesses for Join, OrderBy, With (spare capacity), Update.Set (shared map: changed base, lost column, empty SET, failed Set). What does hold is stated exactly, after any program and for every growth policy: which two Select forks keep apart (C37_select_exactly_partial, C37_joins_exactly_partial; with doubling capacities: 0, 1, 2, 4, 8, ... joins) and what an Update call gives and does to its receiver (C37_update_exactly_partial). Missing, because false: independence of all forks."
  },
  {
   "property": "C38",
   "status": "proved",
   "theorems": [
    "C38_select_delete",
    "C38_return",
    "C38_separate",
    "C38_in_order",
    "C38_update_after_first",
    "C38_update_refuted",
    "C38_one_derivation"
   ],
   "note": "Any interleaving of cell accesses of any number of goroutines. Select and Delete: memory unchanged at every moment, answers as one at a time. Beyond the claim: Update/Insert-on-conflict sort in place; safe when arrays are separate, when the columns are in order, or after a first rendering; refuted for two first renderings of one Update."
  },
  {
   "property": "C39",
   "status": "proved",
   "theorems": [
    "C39_comment_is_appended",
    "C39_comment_is_ignored",
    "C39_line_break_refuted",
    "C39_subquery_comment_refuted"
   ],
   "note": "For comments without line break and statements whose verbatim texts and names are balanced and dash-free; refuted for a comment with a line break and for a comment inside a subquery."
  },
  {
   "property": "C40",
   "status": "proved",
   "theorems": [
    "C40_incomplete_panics",
    "C40_incomplete_subquery_panics",
    "C40_update_without_values"
   ],
   "note": "For the three renderings, and for a SELECT used as subquery."
  },
  {
   "property": "C41",
   "status": "proved",
   "theorems": [
    "C41_integers_are_exact",
    "C41_bytes_are_exact",
    "C41_booleans",
    "C41_valuers"
   ],
   "note": "Floats are an oracle in the model."
  },
  {
   "property": "C42",
   "status": "proved",
   "theorems": [
    "C42_comparison_rendered",
    "C42_null_tests_rendered",
    "C42_between_rendered",
    "C42_subquery_parenthesised",
    "C42_word_operator_subquery_refuted"
   ],
   "note": "Word operators (LIKE, IS, ...) do not parenthesise a subquery operand (refuted)."
  },
  {
   "property": "C43",
   "status": "proved",
   "theorems": [
    "C43_column",
    "C43_table",
    "C43_into",
    "C43_suffix_prefix",
    "C43_from_refuted",
    "C43_refused",
    "C43_list_refused",
    "C43_from_refused",
    "C43_number_refused",
    "C43_no_number_refused",
    "C43_conflict_refused",
    "C43_columns_refused",
    "C43_operand_refused",
    "C43_set_refused",
    "C43_join_refused",
    "C43_condition_refused"
   ],
   "note": "Columns are trimmed. FROM arguments are not checked (refuted). The *_refused theorems give the exact panic of each call; the Go type in 'cannot use %T as ...' is not modelled."
  },
  {
   "property": "C44",
   "status": "partial",
   "theorems": [
    "C44_standard_strings_refuted",
    "C44_plain_strings_partial",
    "C44_exactly_partial"
   ],
   "note": "False as stated (refuted with an injection witness). C44_exactly_partial is an equivalence: read back if and only if valid UTF-8 without quote, backslash, line break and tab."
  },
  {
   "property": "C45",
   "status": "proved",
   "theorems": [
    "C45_insert_clauses",
    "C45_update_clauses",
    "C45_delete_clauses"
   ],
   "note": ""
  },
  {
   "property": "C46",
   "status": "partial",
   "theorems": [
    "C46_meaning_refuted",
    "C46_meaning_partial",
    "C46_exactly_partial"
   ],
   "note": "False in general: OR followed by AND is read from the left. C46_exactly_partial is an equivalence for conditions without repeated equality: the meaning is kept for all rows if and only if no AND follows an OR."
  },
  {
   "property": "C47",
   "status": "proved",
   "theorems": [
    "C47_join_is_complete",
    "C47_without_condition_refuted"
   ],
   "note": "For every argument list. Finding: a join text without condition panics with a nil dereference instead of the documented message."
  },
  {
   "property": "C48",
   "status": "proved",
   "theorems": [
    "C48_one_instant",
    "C48_time_literal",
    "C48_same_microsecond",
    "C48_other_years_refuted"
   ],
   "note": "Calendar.v defines the calendar by the next-day function, without division; the closed formula of the model is proved to count the same days for every integer day. Years outside 1..9999 are refuted."
  },
  {
   "property": "C49",
   "status": "proved",
   "theorems": [
    "C49_select_read_back",
    "C49_one_reading"
   ],
   "note": "Grammar.v is an independent reader (lexer and parser) of SELECT statements; GrammarApi.v says call by call what is described. Words that are written unquoted (order keys, aggregate arguments, WITH names, prefix and suffix) are bare words; subqueries have columns and no comment; calls that panic describe nothing. Comparisons and In of stmt.NewCall take columns, words and Raw(\"*\") as arguments; On, AndOn and OrOn are conditions too; Raw is a call or a column as an operand and an aggregate as an item."
  },
  {
   "property": "C50",
   "status": "proved",
   "theorems": [
    "C50_delete_read_back",
    "C50_one_reading"
   ],
   "note": "GrammarDml.v extends the reader and says call by call what a Delete describes."
  },
  {
   "property": "C51",
   "status": "proved",
   "theorems": [
    "C51_update_read_back",
    "C51_one_reading"
   ],
   "note": "Hypotheses: sort.Slice meets its documentation; something is assigned (otherwise rendering panics or leaves nothing to read). Set keys are names without alias; values are bound values or subqueries, in the list form one subquery or bound values."
  },
  {
   "property": "C52",
   "status": "proved",
   "theorems": [
    "C52_insert_read_back",
    "C52_one_reading"
   ],
   "note": "Rows hold bound values; a row of one element is not nil or a slice (C27 says what those give). ON CONFLICT targets are names."
  },
  {
   "property": "C53",
   "status": "proved",
   "theorems": [
    "C53_select_named_read_back",
    "C53_delete_named_read_back",
    "C53_update_named_read_back",
    "C53_insert_named_read_back",
    "C53_both_forms_agree"
   ],
   "note": "For all four statements, over every call sequence of C49-C52; C53_both_forms_agree says that Query() and NamedQuery() read as the same statement."
  },
  {
   "property": "C54",
   "status": "proved",
   "theorems": [
    "C54_select_text_read_back",
    "C54_delete_text_read_back",
    "C54_update_text_read_back",
    "C54_insert_text_read_back",
    "C54_one_reading"
   ],
   "note": "For all four statements and both server settings. Floats and values printed by fmt are outside (strconv and fmt are not modelled); the restriction on strings without backslash escapes is necessary, see C44."
  },
  {
   "property": "C55",
   "status": "proved",
   "theorems": [
    "C55_find_comments",
    "C55_find_staff_comments",
    "C55_find_users",
    "C55_delete_user",
    "C55_create_comment",
    "C55_readme_create_comment_refuted",
    "C55_upsert_comment",
    "C55_publish_news"
   ],
   "note": "every program of examples/, for all records; C55_readme_create_comment_refuted: the program in README.md does not send the user_id that its comment shows"
  },
  {
   "property": "C56",
   "status": "proved",
   "theorems": [
    "C56_insert_calls",
    "C56_update_calls",
    "C56_delete_calls",
    "C56_columns_values",
    "C56_one_clause_order_matters",
    "C56_insert_clauses"
   ],
   "note": "For every permutation that keeps the order within each clause; C56_insert_clauses: for Insert, Columns and Values count as clauses of their own (only Set is about both). C56_one_clause_order_matters shows that the order within one clause cannot be dropped."
  },
  {
   "property": "C57",
   "status": "proved",
   "theorems": [
    "C57_panics_exactly",
    "C57_returns_exactly",
    "C57_string_exactly",
    "C57_panic_messages",
    "C57_no_wrapped_nil",
    "C57_select_exactly",
    "C57_insert_exactly",
    "C57_update_exactly",
    "C57_delete_exactly",
    "C57_comparisons",
    "C57_in",
    "C57_between",
    "C57_and_or",
    "C57_leaves",
    "C57_exists",
    "C57_select_renders",
    "C57_insert_renders",
    "C57_do_update",
    "C57_update_renders_exactly",
    "C57_delete_renders"
   ],
   "note": "Exact: what can be missing is the inductive gap/lacks_part of Gaps.v. The hypothesis that no nil is wrapped holds of everything the API makes (C57_no_wrapped_nil). Finding: a stmt.From given to From, and an AND or a subquery with nothing in it, are accepted and panic only when rendering."
  },
  {
   "property": "C58",
   "status": "partial",
   "theorems": [
    "C58_select_partial",
    "C58_insert_partial",
    "C58_update_partial",
    "C58_delete_partial",
    "C58_select_frozen",
    "C58_insert_frozen",
    "C58_update_frozen",
    "C58_delete_frozen",
    "C58_select_copied",
    "C58_insert_copied",
    "C58_update_copied",
    "C58_delete_copied",
    "C58_select_held",
    "C58_insert_held",
    "C58_update_held",
    "C58_delete_held",
    "C58_select_passing",
    "C58_insert_passing",
    "C58_update_passing",
    "C58_delete_passing",
    "C58_group_by_refuted",
    "C58_distinct_on_refuted",
    "C58_columns_refuted",
    "C58_insert_columns_refuted",
    "C58_insert_returning_refuted",
    "C58_update_returning_refuted",
    "C58_delete_returning_refuted",
    "C58_with_refuted",
    "C58_shared_withs_refuted",
    "C58_update_withs_refuted",
    "C58_extended_refuted"
   ],
   "note": "The code keeps some of the caller's slices: refuted for GroupBy, DistinctOn, Columns, Insert.Columns, Returning and With, and for WITH slices with spare capacity. Proved for every program that does not assign a kept slice nor extends a version of WITH queries twice, and for slices that are copied. No call changes the caller's slices unless the caller appends to them. Slices that Join, OrderBy, Set and Using extend are values here; C35-C37 treat them."
  },
  {
   "property": "C59",
   "status": "proved",
   "theorems": [
    "C59_forks",
    "C59_forks_chain",
    "C59_once",
    "C59_any_columns",
    "C59_empty_action_shares_target",
    "C59_spare_capacity_shares_target"
   ],
   "note": "Simulation between Insert builders over a memory (arrays of conflict targets and of the columns of actions, sorted in place by rendering) and Insert builders as values. C59_empty_action_shares_target shows why the hypothesis on actions is needed."
  },
  {
   "property": "C60",
   "status": "proved",
   "theorems": [
    "C60_derive",
    "C60_return",
    "C60_plain_calls",
    "C60_no_room",
    "C60_fresh_base",
    "C60_room_refuted",
    "C60_plain_any",
    "C60_update_after_first"
   ],
   "note": "Accesses are atomic and sequentially consistent (one cell at a time); torn multi-word values are left out. C60_room_refuted: with room in the array of joins, for every memory, builder and pair of joins, some schedule makes two goroutines print the same join. C60_plain_any and C60_update_after_first cover Update, Insert and Delete; Set, Using and With on a shared Update interfere even without goroutines (C35, C37). sort.Slice is insertion sort up to 12 elements (Go 1.19), a hypothesis met by go_oracle."
  },
  {
   "property": "C61",
   "status": "proved",
   "theorems": [
    "C61_text",
    "C61_words",
    "C61_one_statement",
    "C61_comment",
    "C61_conditions",
    "C61_constructors",
    "C61_verbatim_arguments",
    "C61_safety_is_needed"
   ],
   "note": "C61_text: what the three outputs are made of; C61_words: where each word of a statement made by calls comes from; C61_one_statement: safe arguments give one statement; C61_comment, C61_conditions, C61_constructors: the same for comments, conditions and other constructors; C61_verbatim_arguments: each listed argument is written as it is; C61_safety_is_needed: witnesses. String() prints values as literals, whose quoting is C10."
  },
  {
   "property": "C62",
   "status": "proved",
   "theorems": [
    "C62_select",
    "C62_pages",
    "C62_count",
    "C62_delete",
    "C62_preview",
    "C62_delete_twice",
    "C62_update",
    "C62_update_twice",
    "C62_update_using",
    "C62_insert",
    "C62_do_nothing",
    "C62_do_update",
    "C62_insert_rows",
    "C62_rows_do_nothing",
    "C62_rows_do_update",
    "C62_insert_then_select"
   ],
   "note": "Effect.v carries out what the readers of Grammar.v and GrammarDml.v read from the text and the arguments; the engine is a parameter. Rows are added one by one (AddRows.v), ON CONFLICT included. One table: joins, USING, FROM in Update, WITH, DISTINCT, GROUP BY and HAVING are not carried out here (C64-C66 do)."
  },
  {
   "property": "C63",
   "status": "proved",
   "theorems": [
    "C63_select_same",
    "C63_delete_same",
    "C63_update_same",
    "C63_insert_same",
    "C63_select_effect",
    "C63_delete_effect",
    "C63_update_effect",
    "C63_insert_effect",
    "C63_unescaped_literal_refuted",
    "C63_select_tables",
    "C63_delete_tables",
    "C63_update_tables",
    "C63_insert_tables"
   ],
   "note": "Proved for all described builders, subqueries included, for one table (C63_select, ...) and for many (C63_select_tables, ...). Strings must be valid UTF-8 and, for a database without backslash escapes, have no quote, backslash, tab or line break: C63_unescaped_literal_refuted shows a Delete whose String() removes every row while its Query() removes none."
  },
  {
   "property": "C64",
   "status": "proved",
   "theorems": [
    "C64_select",
    "C64_count",
    "C64_inner",
    "C64_left",
    "C64_right",
    "C64_left_loses_nothing",
    "C64_product",
    "C64_forms",
    "C64_text_and_on",
    "C64_delete_using",
    "C64_delete_partners"
   ],
   "note": "Proved for any world (parameter) and any chain of joins. Left out: WITH, DISTINCT, GROUP BY, HAVING, UPDATE ... FROM. A name that PostgreSQL would refuse as ambiguous or unknown is here the first column of that name, or NULL."
  },
  {
   "property": "C65",
   "status": "proved",
   "theorems": [
    "C65_correlated",
    "C65_in",
    "C65_not_in",
    "C65_not_in_null",
    "C65_exists",
    "C65_compare",
    "C65_with",
    "C65_window",
    "C65_distinct",
    "C65_group",
    "C65_stands_alone",
    "C65_distinct_on",
    "C65_having",
    "C65_order",
    "C65_with_all"
   ],
   "note": "An abstract database reads the text (as in C49/C50) and evaluates the whole of SELECT as the SQL standard orders it (Meaning.v). The subquery theorems are for subqueries that do not depend on the row in which they stand (C65_stands_alone gives a syntactic condition); correlated ones have their meaning in Meaning.v and no separate theorem."
  },
  {
   "property": "C66",
   "status": "proved",
   "theorems": [
    "C66_update",
    "C66_update_rows",
    "C66_update_in",
    "C66_set_sub",
    "C66_using_sub",
    "C66_update_with",
    "C66_delete",
    "C66_delete_rows",
    "C66_delete_in",
    "C66_delete_not_in",
    "C66_preview",
    "C66_insert",
    "C66_delete_correlated",
    "C66_insert_rows",
    "C66_do_nothing",
    "C66_do_update",
    "C66_upsert",
    "C66_upsert_twice"
   ],
   "note": "Update with With, From, subqueries in Set/Using/Where; Delete with Using and subqueries; correlated Exists/NotExists through Raw(table.column); preview by Select; Insert of one or many rows with subqueries, OnConflict with DoNothing/DoUpdate and EXCLUDED, upsert and upsert sent again. Which of several matching rows of From supplies the values is left open, as in PostgreSQL."
  },
  {
   "property": "C67",
   "status": "proved",
   "theorems": [
    "C67_exchange_select",
    "C67_exchange_delete",
    "C67_exchange_update",
    "C67_update_narrows",
    "C67_select",
    "C67_and_narrows",
    "C67_or_widens",
    "C67_delete",
    "C67_delete_narrows",
    "C67_update"
   ],
   "note": "Laws are steps from one list of calls to another (Laws.v), and a relation on conditions (Exchange.v) closed under And, Or, symmetry and transitivity, usable in Where, And, Or and Having. Narrowing and widening of Select is for programs without groups, DISTINCT, order and limits; of Update without From."
  },
  {
   "property": "C68",
   "status": "partial",
   "theorems": [
    "C68_addresses_partial",
    "C68_values_refuted",
    "C68_answers_exactly",
    "C68_otherwise_none",
    "C68_same_query"
   ],
   "note": "False as stated: the four functions assert pointer types, so they answer false for every builder as Select(), Insert(), Update(), Delete() and their methods return it (C68_values_refuted, for every program). C68_addresses_partial: they are right about the address of a builder. C68_answers_exactly and C68_otherwise_none say for everything the interface can hold what is answered; C68_same_query: the three renderings are the same through the interface."
  },
  {
   "property": "C69",
   "status": "proved",
   "theorems": [
    "C69_comparison",
    "C69_in",
    "C69_values",
    "C69_set",
    "C69_between"
   ],
   "note": "Every comparison method, In and NotIn, Between, Set of an Update and Values of an Insert, with the text and the arguments that are sent. In and Values with several operands; a single slice is C16 and C28. A type is represented by the first interface of the type switch that it implements."
  },
  {
   "property": "C70",
   "status": "proved",
   "theorems": [
    "C70_one_kind",
    "C70_session",
    "C70_session_with_arguments",
    "C70_selects"
   ],
   "note": "Session of any length; each message is a text with its arguments and nothing else. String() needs a database that takes literals for their values (tables_take_literals, met by an example engine)."
  },
  {
   "property": "C71",
   "status": "proved",
   "theorems": [
    "C71_join_is_condition",
    "C71_on_or_where",
    "C71_outer_keeps",
    "C71_in_or_exists",
    "C71_delete_using"
   ],
   "note": "Where the laws stop is shown by examples: with Or among the conditions, for conditions of a LEFT join, and for NotIn with NULLs (C71_join_or, C71_on_left, C71_not_in)."
  },
  {
   "property": "C72",
   "status": "proved",
   "theorems": [
    "C72_select",
    "C72_insert",
    "C72_update",
    "C72_delete",
    "C72_constructors",
    "C72_text",
    "C72_copied_refuted"
   ],
   "note": "An address is written as a value of a type that the library only passes on; it leads to bytes, a map[string]string, a map[string]interface{}, or what a driver.Valuer behind a pointer returns. C72_constructors covers the conditions, WITH queries and actions given to the calls. []string and []int64 given as one value are not covered. Finding: no copy is made, so a caller that reuses a buffer changes statements already built (C72_copied_refuted)."
  },
  {
   "property": "C73",
   "status": "partial",
   "theorems": [
    "C73_condition_refuted",
    "C73_assignment_refuted",
    "C73_map_refuted",
    "C73_distinct_refuted",
    "C73_scalar_partial"
   ],
   "note": "False as stated: a []string, []int64, map[string]string or map[string]interface{} given to a comparison, or a slice given to Set, is printed by fmt.Sprint (format/format.go default case), [a b] or map[k:v], with its elements unquoted; for every such value and all names the SQL reader refuses the text (C73_condition_refuted, C73_assignment_refuted, C73_map_refuted), and two different slices can give one text (C73_distinct_refuted). Query() passes the value as one argument. C73_scalar_partial: nil, booleans, integers, bytes, times, strings, valuers and encoders of these are read back as the value (C54 for whole statements). What fmt.Sprint prints for slices and maps is a hypothesis taken from the documentation of fmt (Sprint.v), shown to be satisfiable."
  },
  {
   "property": "C74",
   "status": "partial",
   "theorems": [
    "C74_in_nothing_refuted",
    "C74_subquery_operand_refuted",
    "C74_between_subquery_refuted",
    "C74_group_by_alias_refuted",
    "C74_insert_alias_refuted",
    "C74_set_alias_refuted",
    "C74_no_values_refuted",
    "C74_empty_row_refuted",
    "C74_insert_nothing_refuted",
    "C74_conflict_alias_refuted",
    "C74_only_twice_refuted",
    "C74_order_nothing_refuted",
    "C74_with_nothing_refuted",
    "C74_condition_name_refuted",
    "C74_described_partial"
   ],
   "note": "False as stated. For all names and values, these are accepted and build a text that the SQL reader refuses: In and NotIn with nothing, nil or an empty slice (C74_in_nothing_refuted); a subquery as operand of Like, NotLike, ILike, NotILike, Is, IsNot, IsDistinctFrom, IsNotDistinctFrom and Between (C74_subquery_operand_refuted, C74_between_subquery_refuted); a column with an alias in GroupBy, DistinctOn, Insert.Columns, OnConflict and Set (C74_group_by_alias_refuted, C74_insert_alias_refuted, C74_conflict_alias_refuted, C74_set_alias_refuted); an Insert without Values and Set (C74_insert_nothing_refuted); Values with an empty slice or an empty row (C74_no_values_refuted, C74_empty_row_refuted); Update(Table(t).Only()).Only() (C74_only_twice_refuted); Order and With with an empty name (C74_order_nothing_refuted, C74_with_nothing_refuted); Condition of something that is not a name (C74_condition_name_refuted). C74_described_partial: the calls that C49 to C52 describe do build SQL, an Insert if it has values."
  }
 ]
}