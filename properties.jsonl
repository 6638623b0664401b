{"id": "C01", "title": "Query text never depends on bound values", "statement": "For every statement, replacing any non-nil value passed as a value (comparison operand, IN element, SET/INSERT value, BETWEEN bound) by any other non-nil value leaves the text returned by Query() and by NamedQuery() unchanged, and changes the returned arguments only by replacing those same values. No part of a bound value ever reaches the SQL text.", "quantifier": "every statement (any nesting of subqueries, CTEs, joins) and every replacement function on values", "why_tests_cant": "The set of values and statement shapes is infinite; a test only samples a few injection strings.", "anchors": ["types/context.go:StdContext.Bind", "types/context.go:NamedContext.Bind", "stmt/expression.go:Value.Write", "builder/select.go:Select.Query"]}
{"id": "C02", "title": "Placeholders are $1..$n in order and match the arguments", "statement": "If Query() returns (text, args), the text is a sequence of literal fragments separated by $1, $2, ..., $n in this order with n = len(args), and the i-th placeholder stands for args[i-1], the i-th bound value in left-to-right reading order.", "quantifier": "every statement of every kind for which Query() returns", "why_tests_cant": "Depends on arbitrary nesting of subqueries; an off-by-one only shows in shapes the tests do not contain.", "anchors": ["types/context.go:StdContext", "builder/select.go:Select.Query", "builder/insert.go:Insert.Query", "builder/update.go:Update.Query", "builder/delete.go:Delete.Query"]}
{"id": "C03", "title": "NamedQuery keys are exactly arg_1..arg_n", "statement": "If NamedQuery() returns (text, m) and Query() on the same builder returns (t, args), then m has exactly len(args) keys, they are arg_1..arg_n, m[arg_i] = args[i-1], and the text is Query()'s with every $i replaced by :arg_i.", "quantifier": "every statement", "why_tests_cant": "Key collisions (len(map)+1 naming) could only be ruled out by an invariant over all Bind sequences.", "anchors": ["types/context.go:NamedContext.Bind", "builder/select.go:Select.NamedQuery"]}
{"id": "C04", "title": "String() is Query() with literals inlined", "statement": "String() is Query()'s text with placeholder $i replaced by the literal rendering of args[i-1]; the three renderings succeed or panic on the same statements, except that String() can additionally panic when a driver.Valuer argument returns an error.", "quantifier": "every statement", "why_tests_cant": "Needs agreement of three renderers over all statements.", "anchors": ["types/context.go:RawContext.Bind", "format/format.go:Value"]}
{"id": "C05", "title": "nil is never bound", "statement": "A nil operand is rendered as the keyword NULL and takes no placeholder; Query()'s args never contain an untyped nil.", "quantifier": "every statement", "why_tests_cant": "Would need every position where a nil can be passed.", "anchors": ["stmt/expression.go:Value.Write", "stmt/expression.go:NewExpression"]}
{"id": "C06", "title": "Embedding a subquery keeps its SQL and its arguments contiguous", "statement": "When a SELECT is used as a subquery (comparison operand, EXISTS, IN, CTE), the outer rendering contains, verbatim and contiguous, the fragments and bound values that the subquery renders on its own, with placeholders shifted by the number of values bound before it.", "quantifier": "every outer context and every subquery", "why_tests_cant": "Arbitrary nesting depth.", "anchors": ["stmt/expression.go:Wrapper.Write", "stmt/subquery.go:Exists.Write", "stmt/with.go:WithQuery.Write"]}
{"id": "C07", "title": "Identifier quoting is injective", "statement": "Two different identifier strings (any bytes) never render to the same quoted text.", "quantifier": "all pairs of byte strings, for any table of printable non-ASCII characters", "why_tests_cant": "Infinite set of names, including invalid UTF-8.", "anchors": ["stmt/stmt.go:quote"]}
{"id": "C08", "title": "Identifiers denote the given dotted name in PostgreSQL", "statement": "For a name made of printable characters without double quote or backslash, PostgreSQL's reading of the quoted identifier is exactly the dot-separated parts given by the user; the identifier cannot extend beyond its quotes.", "quantifier": "all such names, followed by any text", "why_tests_cant": "Infinite set of names.", "anchors": ["stmt/stmt.go:quote", "stmt/column.go:Column.Write", "stmt/table.go:Table.Write"]}
{"id": "C09", "title": "Identifiers cannot inject SQL", "statement": "For every byte string used as column or table name, PostgreSQL reads the rendered text as one (dotted) quoted identifier and nothing else.", "quantifier": "all byte strings", "why_tests_cant": "Needs all names; false for names with a double quote (Go escapes it with a backslash), which is a finding.", "anchors": ["stmt/stmt.go:quote"]}
{"id": "C10", "title": "String literals of String() decode to the original text", "statement": "For every valid UTF-8 string the literal printed by String() is closed exactly at its last character and decodes, with backslash escapes, to the original string.", "quantifier": "all valid UTF-8 strings, followed by any text", "why_tests_cant": "Infinite set of strings.", "anchors": ["format/format.go:String"]}
{"id": "C11", "title": "Parenthesised conditions keep their structure", "statement": "For conditions built with comparison, IN, BETWEEN, AND and OR, the rendered text parses back, with the usual SQL condition grammar and with no use of operator precedence, to exactly the tree the caller built, operand by operand.", "quantifier": "all condition trees of any depth over quotable identifiers and values", "why_tests_cant": "Precedence bugs appear only for particular nestings.", "anchors": ["stmt/infix.go:InfixExpression.Write", "stmt/in.go:In.Write", "stmt/between.go:Between.Write"]}
{"id": "C12", "title": "Parentheses are balanced", "statement": "The rendered condition has balanced parentheses and never closes a parenthesis it did not open, so it can be embedded in any context.", "quantifier": "all conditions without user-supplied raw SQL", "why_tests_cant": "All nestings.", "anchors": ["stmt/infix.go:InfixExpression.Write", "stmt/expression.go:Wrapper.Write"]}
{"id": "C13", "title": "Where/And/Or chains associate to the left", "statement": "A chain Where(c0).op1(c1)...opk(ck) renders a WHERE clause equivalent to ((c0 op1 c1) op2 c2)...; calling Where again is the same as And.", "quantifier": "all chains of any length, on Select, Update and Delete", "why_tests_cant": "All chain lengths and operator mixes.", "anchors": ["stmt/where.go:Where.And", "stmt/where.go:Where.Or", "builder/select.go:Select.Where"]}
{"id": "C14", "title": "And never widens, Or never narrows the selected rows", "statement": "With SQL three-valued logic, rows selected after adding And(c) are a subset, and after adding Or(c) a superset, of the rows selected before, for any row and any meaning of the atomic conditions.", "quantifier": "all WHERE chains, all conditions that render, all rows and interpretations", "why_tests_cant": "Semantic statement over all conditions.", "anchors": ["stmt/where.go:Where.And", "stmt/where.go:Where.Or"]}
{"id": "C15", "title": "A condition passed to Where is never silently dropped", "statement": "If Where/And/Or(c) is called on a Delete, Update or Select builder and rendering succeeds, the SQL contains a WHERE clause with c.", "quantifier": "all conditions", "why_tests_cant": "Needs all conditions; false for conditions considered empty (nil, Raw(\"\"), Condition(\"\")), where DELETE/UPDATE loses its whole WHERE: a finding.", "anchors": ["stmt/where.go:Where.IsEmpty", "builder/delete.go:Delete.Where", "stmt/delete.go:Delete.Write"]}
{"id": "C16", "title": "IN with a slice equals IN with the elements", "statement": "Condition(x).In([]T{a1..an}) and Condition(x).In(a1, ..., an) render the same SQL with n comma-separated operands in order, n placeholders for n non-nil values.", "quantifier": "all element lists of length other than one, and one-element lists of non-slice values", "why_tests_cant": "All lengths and element types.", "anchors": ["stmt/expression.go:NewArrayExpression", "stmt/expression.go:toArray"]}
{"id": "C17", "title": "Clause order of SELECT is fixed", "statement": "The SQL lists prefix, WITH, SELECT, DISTINCT ON, DISTINCT, expressions, FROM, JOINs, WHERE, GROUP BY, HAVING, ORDER BY, LIMIT, OFFSET, suffix, comment in this order, each exactly when it was set.", "quantifier": "all select statements that render", "why_tests_cant": "2^15 clause subsets times contents.", "anchors": ["stmt/select.go:Select.Write"]}
{"id": "C18", "title": "Builder call order across clauses does not matter", "statement": "Reordering calls that address different clauses of a Select builder (without DistinctOn, Suffix, Prefix) yields the same statement, or panics in both orders.", "quantifier": "all call sequences and all reorderings that keep the relative order of calls on the same clause", "why_tests_cant": "Factorially many orders.", "anchors": ["builder/select.go"]}
{"id": "C19", "title": "Single-use clauses cannot be overwritten", "statement": "After a successful From, GroupBy, Having, Limit or Offset of a Select that set a non-empty clause, a second call of the same method panics, whatever calls happen in between, and so do the single-use calls of Insert, Update and Delete. The panic names the builder and the clause.", "quantifier": "all call sequences", "why_tests_cant": "All interleavings of calls.", "anchors": ["builder/select.go:Select.From", "builder/select.go:Select.GroupBy", "builder/select.go:Select.Limit"]}
{"id": "C20", "title": "DistinctOn, Suffix and Prefix guards", "statement": "A second DistinctOn/Suffix/Prefix panics and a first one never does because of another clause.", "quantifier": "all call sequences", "why_tests_cant": "False: DistinctOn is guarded by GROUP BY and Suffix/Prefix by OFFSET (finding).", "anchors": ["builder/select.go:Select.DistinctOn", "builder/select.go:Select.Suffix", "builder/select.go:Select.Prefix"]}
{"id": "C21", "title": "LIMIT and OFFSET carry exactly the given integer", "statement": "Limit(v)/Offset(v) with an integer of any accepted type, or a decimal string, either panics or renders the decimal form of exactly v; no value wraps around; Limit accepts only v > 0 and Offset only v >= 0.", "quantifier": "all integers of all kinds, all strings", "why_tests_cant": "64-bit ranges and all strings.", "anchors": ["builder/builder.go:ToInt64", "builder/builder.go:ToLimit", "builder/builder.go:ToOffset", "stmt/limit.go:Limit.Write"]}
{"id": "C22", "title": "Comma-separated columns", "statement": "Columns given as strings yield one column per comma-separated item, trimmed of white space, in order; an empty item panics; the result does not depend on how items are grouped into arguments.", "quantifier": "all lists of strings", "why_tests_cant": "All strings.", "anchors": ["builder/builder.go:ToColumns", "builder/builder.go:ToSelectExpressions"]}
{"id": "C23", "title": "SET: last write wins, each column once", "statement": "After any sequence of Set calls with pairs and maps on an Update (or the pairs of an Insert.Set / DoUpdate), the rendered SET list has each column exactly once, with the value of its last assignment, and no other column.", "quantifier": "all sequences of assignments", "why_tests_cant": "All assignment histories.", "anchors": ["stmt/set.go:PairContainer.Add", "stmt/set.go:PairContainer.WriteAssociative", "builder/builder.go:MergeSet"]}
{"id": "C24", "title": "SET order is canonical", "statement": "The rendered assignment list depends only on the final column-to-value mapping: it is sorted by column name and independent of call order and of Go's map iteration order (columns without alias).", "quantifier": "all assignment sequences and all iteration orders, for any sorting algorithm that meets sort.Slice's contract", "why_tests_cant": "Map iteration is random: a test cannot enumerate n! orders.", "anchors": ["stmt/set.go:PairContainer.Values", "builder/builder.go:MergeSet"]}
{"id": "C25", "title": "SET order with aliased columns", "statement": "The canonical order holds for all columns, aliased or not, and rendering twice gives the same SQL.", "quantifier": "all columns", "why_tests_cant": "False: the comparator Name<Name || Alias<Alias is not an order when aliases differ (finding).", "anchors": ["stmt/set.go:PairContainer.Values"]}
{"id": "C26", "title": "Key-value and column-list SET never mix", "statement": "An Update uses either SET a = 1, ... or SET (a, ...) = (...): any call sequence that uses both panics; a rendered UPDATE always has at least one assignment value.", "quantifier": "all call sequences on Update", "why_tests_cant": "All call sequences.", "anchors": ["stmt/set.go:PairContainer.Add", "stmt/set.go:PairContainer.Set", "stmt/set.go:PairContainer.Use", "stmt/update.go:Update.IsEmpty"]}
{"id": "C27", "title": "INSERT ... Set keeps columns and values aligned", "statement": "Insert.Set renders as many values as columns and the i-th value is the one assigned to the i-th column.", "quantifier": "all sets of pairs", "why_tests_cant": "All pair lists.", "anchors": ["builder/insert.go:Insert.Set"]}
{"id": "C28", "title": "Batch INSERT renders every row in order", "statement": "Values([][]T{r1..rn}) with n > 0 renders n parenthesised rows in order, each with its elements in order.", "quantifier": "all batches of rows whose length is not one, or whose single element is not itself a slice", "why_tests_cant": "All sizes.", "anchors": ["stmt/expression.go:NewArrayListExpression", "stmt/expression.go:ArrayList.Write"]}
{"id": "C29", "title": "ON CONFLICT is well formed", "statement": "If OnConflict returns, the clause has an action; DO UPDATE has at least one target column; targets are the columns given before the action, in order; arguments after the action are ignored.", "quantifier": "all argument lists", "why_tests_cant": "All argument lists.", "anchors": ["builder/insert.go:Insert.OnConflict", "stmt/conflict.go:OnConflict.Write"]}
{"id": "C30", "title": "Lexer terminates and loses nothing", "statement": "For every input without NUL, the lexer stops after finitely many tokens and the concatenated token values are the input's characters without white space, in order.", "quantifier": "all byte strings (invalid UTF-8 read as U+FFFD)", "why_tests_cant": "All inputs.", "anchors": ["lexer/lexer.go:Lexer.Next", "lexer/lexer.go:Lexer.Iterator"]}
{"id": "C31", "title": "Lexer: keywords are case-insensitive and whole words", "statement": "A maximal run of letters, digits, '_' and '.' becomes one token, a keyword token exactly when its upper-case form is a keyword; white space between tokens never changes the token list.", "quantifier": "all inputs", "why_tests_cant": "All spellings and spacings.", "anchors": ["lexer/lexer.go:Lexer.readIdentifier", "token/token.go:Lookup"]}
{"id": "C32", "title": "ParseJoin reads every join it is documented to read", "statement": "For every join type, table, and chain of 'a = b' conditions linked by AND/OR, written with any letter case of keywords and any white space, ParseJoin returns that type, that table, and the left-associated condition.", "quantifier": "all chains of any length, all literal names, all white space", "why_tests_cant": "All inputs of the grammar.", "anchors": ["parser/join.go:ParseJoin"]}
{"id": "C33", "title": "ParseJoin never panics and never drops text silently", "statement": "For every input ParseJoin returns a join or an error, and a returned join accounts for the whole input.", "quantifier": "all strings", "why_tests_cant": "False: 'ON a = b AND c' panics with index out of range, 'ON (a = b) AND (c = d)' drops the second condition (finding).", "anchors": ["parser/join.go:ParseJoin", "lexer/iteratee.go:Iteratee.Next"]}
{"id": "C34", "title": "ParseJoin errors return the zero join", "statement": "Whenever ParseJoin returns an error the join returned with it is the zero value.", "quantifier": "all strings", "why_tests_cant": "All inputs.", "anchors": ["parser/join.go:ParseJoin"]}
{"id": "C35", "title": "Builders used linearly behave as values", "statement": "If every builder value is used as receiver of at most one method call, the statement of each builder is determined by its own chain of calls only.", "quantifier": "all call chains, all slice growth policies", "why_tests_cant": "Depends on capacity growth and aliasing histories.", "anchors": ["builder/select.go", "builder/update.go", "builder/insert.go"]}
{"id": "C36", "title": "Forking a builder with non-accumulating calls is safe", "statement": "Deriving any number of builders from one base with Where, And, Or, GroupBy, Having, Limit, Offset, From, Columns, DistinctOn, Distinct, Prefix, Suffix, Comment, Returning never changes the SQL of the base or of another derived builder.", "quantifier": "all fork trees", "why_tests_cant": "All histories.", "anchors": ["builder/select.go", "builder/delete.go"]}
{"id": "C37", "title": "Forking a builder is always safe", "statement": "Deriving two builders from the same base never makes one affect the other or the base.", "quantifier": "all fork trees", "why_tests_cant": "False for Join, OrderBy, With (shared spare capacity) and for Update.Set (shared map): findings.", "anchors": ["builder/select.go:Select.Join", "builder/select.go:Select.OrderBy", "builder/update.go:Update.Set"]}
{"id": "C38", "title": "Rendering has no side effects", "statement": "String(), Query() and NamedQuery() on Select and Delete do not modify any state reachable from builders, so they may be called repeatedly and concurrently.", "quantifier": "all statements, all interleavings of renderings", "why_tests_cant": "All interleavings.", "anchors": ["stmt/select.go:Select.Write", "stmt/delete.go:Delete.Write"]}
{"id": "C39", "title": "A trailing comment does not change the query", "statement": "For a comment without line break, the SQL with comment is the SQL without it followed by '; -- ' and the comment; a reader that strips from '--' to the end of line sees the same query.", "quantifier": "all comments and statements", "why_tests_cant": "All comments; false for comments with a newline and for commented subqueries (finding).", "anchors": ["stmt/comment.go:Comment.Write", "stmt/select.go:Select.writeTail"]}
{"id": "C40", "title": "Empty statements are never rendered", "statement": "Select without expression, Insert without table, Update without table or values, Delete without FROM: rendering panics instead of producing SQL.", "quantifier": "all statements", "why_tests_cant": "All statements.", "anchors": ["stmt/select.go:Select.IsEmpty", "stmt/insert.go:Insert.IsEmpty", "stmt/update.go:Update.IsEmpty", "stmt/delete.go:Delete.IsEmpty"]}
{"id": "C41", "title": "Integers, booleans and bytes are printed faithfully by String()", "statement": "Integer literals are the decimal form of the value for every kind and the full range; []byte literals decode from hex to the same bytes; booleans are true/false.", "quantifier": "all values", "why_tests_cant": "Full 64-bit ranges and all byte strings.", "anchors": ["format/format.go:Value", "format/format.go:Bytes", "format/format.go:Int"]}
{"id": "C42", "title": "Comparison operators are rendered as documented", "statement": "Each comparison method renders '(identifier OP operand)' with its documented operator and the operand bound as one placeholder (or NULL, or the parenthesised subquery).", "quantifier": "all identifiers and all operand values", "why_tests_cant": "All operand kinds.", "anchors": ["stmt/expression.go:Identifier", "stmt/expression.go:Call", "stmt/expression.go:Value"]}
{"id": "C43", "title": "Conversions reject what they cannot represent", "statement": "ToColumn, ToTable, ToInto, ToSuffix, ToPrefix either panic or return a non-empty clause with exactly the given text; nothing is silently replaced. Insert, Update, Delete, Select and the calls From, Columns, Returning, GroupBy, DistinctOn, Using, Join, Suffix, Prefix, Limit, Offset, Set and OnConflict panic for the first argument of a wrong type or without text, and the panic says which of the two it is and for what the argument was meant.", "quantifier": "all arguments", "why_tests_cant": "All dynamic types.", "anchors": ["builder/builder.go:ToColumn", "builder/builder.go:ToTable", "builder/builder.go:ToInto"]}
{"id": "C44", "title": "String literals are safe with standard_conforming_strings", "statement": "For every valid UTF-8 string, the literal printed by String() denotes the same string when PostgreSQL reads plain literals without backslash escapes (standard_conforming_strings = on, its default).", "quantifier": "every valid UTF-8 string", "why_tests_cant": "the set of strings is infinite and the failing ones are adversarial", "anchors": ["format/format.go:String", "types/types.go:RawContext.Bind"]}
{"id": "C45", "title": "Clause order of INSERT, UPDATE and DELETE is fixed", "statement": "INSERT lists INTO, columns, VALUES, ON CONFLICT, RETURNING; UPDATE lists WITH, UPDATE, ONLY, table, SET, FROM, WHERE, RETURNING; DELETE lists FROM, USING, WHERE, RETURNING; each exactly when it was set, separated by one space, then the comment.", "quantifier": "all insert, update and delete statements that render", "why_tests_cant": "There are 2^n combinations of clauses, and each clause has unbounded content.", "anchors": ["stmt/insert.go:Insert.Write", "stmt/update.go:Update.Write", "stmt/delete.go:Delete.Write"]}
{"id": "C46", "title": "A parsed ON condition has its SQL meaning", "statement": "For every truth assignment of the equalities, the condition ParseJoin returns is true exactly when the text is true by SQL's rules (AND binds tighter than OR).", "quantifier": "all texts of the join grammar, all truth assignments", "why_tests_cant": "All chains and assignments; false for a = b OR c = d AND e = f (finding).", "anchors": ["parser/join.go:ParseJoin", "stmt/infix.go:InfixExpression.Write"]}
{"id": "C47", "title": "Join never adds an incomplete clause", "statement": "If Select.Join returns, it has appended exactly one join, after the ones already there, with a type, a table name and a non-empty condition, and changed nothing else.", "quantifier": "all builders, all argument lists", "why_tests_cant": "All strings, tables, types and conditions.", "anchors": ["builder/select.go:Select.Join", "stmt/join.go:Join.IsEmpty"]}
{"id": "C48", "title": "Time literals of String() name the instant of the value", "statement": "For every time between the years 1 and 9999 the literal printed by String() is a well-formed UTC timestamp whose date, by counting calendar days one by one from 1970-01-01, and time of day name the instant of the value truncated to the microsecond; two times print alike exactly when they fall in the same microsecond. Outside these years the literal is not a timestamp of this form.", "quantifier": "all instants (seconds and nanoseconds, unbounded integers within the stated years)", "why_tests_cant": "the calendar has 3.6 million days and each day 86.4 billion microseconds: leap years, century years and trailing zeros are only sampled by tests", "anchors": ["format/format.go:Time", "format/format.go:Value", "stmt/expression.go:NewValue"]}
{"id": "C49", "title": "A rendered Select reads back as the query that its calls describe", "statement": "Take any sequence of Select builder calls (Columns, Distinct, DistinctOn, From, Join in its three forms, With, Where, And, Or, GroupBy, Having, OrderBy, Limit, Offset, Prefix, Suffix, Comment) whose conditions, items and operands are built by the API, with subqueries nested to any depth. The text of Query(), read with its values by a SQL grammar written independently of the library (tokens, then a recursive-descent parser with AND binding tighter than OR), is accepted and is exactly the query the calls describe: same clauses, same nesting of conditions, same names, same values in the same places, nothing added or lost. So two builders that describe different queries never produce the same text and values.", "quantifier": "all call sequences, all nestings of conditions and subqueries, all names that PostgreSQL can read back, all values", "why_tests_cant": "unit tests compare a few dozen texts; parentheses, keywords, separators and placeholders can go wrong only in combinations, and there are infinitely many combinations of clauses, operators and nesting", "anchors": ["stmt/select.go:Write", "builder/select.go", "stmt/infix.go:Write", "stmt/in.go:Write", "stmt/between.go:Write", "stmt/subquery.go:Write", "stmt/join.go:Write", "stmt/with.go:Write", "stmt/aggregate.go:Write", "stmt/orderby.go:Write", "stmt/comment.go:Write"]}
{"id": "C50", "title": "A rendered Delete reads back as the deletion that its calls describe", "statement": "Take any sequence of Delete calls (Using, Where, And, Or, Returning, Comment) with conditions built by the API, subqueries included. The text of Query(), read with its values by an independent SQL grammar, is accepted and is exactly the deletion described: the same table, the same USING list, the same condition with the same nesting, the same RETURNING list, every value in its place. A deletion therefore never loses or widens its condition, and two builders that describe different deletions never render to the same text and values.", "quantifier": "all call sequences, conditions, nested subqueries, names that PostgreSQL can read back, values", "why_tests_cant": "a condition that is dropped or regrouped deletes the wrong rows; tests look at a few conditions, the property is about all of them", "anchors": ["stmt/delete.go:Write", "builder/delete.go", "stmt/using.go:Write", "stmt/where.go:Write", "stmt/returning.go:Write"]}
{"id": "C51", "title": "A rendered Update reads back as the update that its calls describe", "statement": "Take any sequence of Update calls (Only, Set with pairs and maps, Set with columns followed by Using, With, Where, And, Or, From, Returning, Comment). If something is assigned, the text of Query(), read with its values by an independent SQL grammar, is exactly the update described: each column is assigned the last value given for it (a bound value, NULL or a parenthesised subquery), columns in the order of their names, or the listed columns the listed values; with the same table, FROM, condition and RETURNING.", "quantifier": "all call sequences, all maps and their iteration orders, all implementations of sort.Slice that meet its documentation, all values and subqueries", "why_tests_cant": "which column gets which value depends on map order, sorting, overwriting and placeholder numbering over arbitrarily many columns", "anchors": ["stmt/update.go:Write", "builder/update.go", "stmt/set.go", "builder/builder.go:MergeSet", "stmt/with.go:Write", "stmt/from.go:Write"]}
{"id": "C52", "title": "A rendered Insert reads back as the insertion that its calls describe", "statement": "Take any sequence of Insert calls (Columns, Values with one row or a slice of rows, Set, OnConflict with DoNothing or DoUpdate, Returning, Comment). The text of Query(), read with its values by an independent SQL grammar, is exactly the insertion described: the same table, the same columns, the same rows with every value in its column, the same conflict target and action, the same RETURNING.", "quantifier": "all call sequences, any number of rows and columns, all maps and iteration orders, all implementations of sort.Slice that meet its documentation", "why_tests_cant": "a value that slips to another row or column stores wrong data; batches have any number of rows and columns", "anchors": ["stmt/insert.go:Write", "builder/insert.go", "stmt/values.go:Write", "stmt/conflict.go", "stmt/expression.go:NewArrayListExpression", "stmt/set.go:Values"]}
{"id": "C53", "title": "The text of NamedQuery() reads back as the same statement", "statement": "For every Select, Delete, Update and Insert covered by C49 to C52, the text of NamedQuery(), read with its map of arguments by the same independent SQL grammar (:name stands for the argument of that name), is accepted and is exactly the statement that the calls describe. The text of Query() with its positional arguments and the text of NamedQuery() with its named arguments are therefore the same statement.", "quantifier": "all call sequences, conditions, nested subqueries, names that PostgreSQL can read back, values, any number of arguments", "why_tests_cant": "a name that is attached to the wrong value, or shared by two values, shows only for certain numbers and nestings of arguments", "anchors": ["types/context.go:NamedContext", "types/context.go:Bind", "builder/select.go:NamedQuery", "builder/insert.go:NamedQuery", "builder/update.go:NamedQuery", "builder/delete.go:NamedQuery"]}
{"id": "C54", "title": "The text of String() reads back as the statement with its values as literals", "statement": "Take any sequence of Select, Delete, Update or Insert calls whose values are nil, booleans, integers, byte slices, times, strings of valid UTF-8 or valuers of these. The text of String(), read without arguments by the same independent SQL grammar, is accepted and is exactly the statement that the calls describe, with each value in its place as the literal that denotes it: no value changes, ends its literal early or becomes part of the statement. On a server that reads backslash escapes in string literals this holds for every such string; on one that does not (the default of PostgreSQL, standard_conforming_strings) it holds for strings without quotes, backslashes, line breaks and tabs (C44 shows that it fails for others). Two builders with the same text describe the same query.", "quantifier": "all call sequences, conditions, nested subqueries, all values of the listed types, both settings of the server", "why_tests_cant": "whether a literal can be misread depends on every byte of every value and on what follows it in the statement", "anchors": ["builder/select.go:String", "format/format.go:Value", "format/format.go:String", "format/format.go:Bytes", "format/format.go:Time", "types/context.go:RawContext"]}
{"id": "C55", "title": "The example programs send the statements that their comments show, for every record", "statement": "For every comment, news item and user record, each program of examples/named and examples/standard builds its statement without panicking; NamedQuery() gives the text in the program's comment (names quoted), with the arguments in its comment under the names in its comment, and Query() gives the same statement with the same values in the same order; both read back as that statement, so no email, message or id can change it. The exception is CreateComment in README.md: its comment shows a user_id column and a fourth argument that its program does not send.", "quantifier": "all records (emails, messages, ids), all orders in which a map may be visited", "why_tests_cant": "the examples are run with one record each against a database; the claim is about every content of the fields", "anchors": ["examples/named/comment.go:FindComments", "examples/named/comment.go:FindStaffComments", "examples/named/comment.go:CreateComment", "examples/named/comment.go:UpsertComment", "examples/named/news.go:PublishNews", "examples/named/user.go:FindUsers", "examples/named/user.go:DeleteUser", "examples/standard/comment.go:CreateComment", "README.md"]}
{"id": "C56", "title": "The order of calls on an Insert, Update or Delete builder does not matter across clauses", "statement": "Two sequences of calls on the same Insert, Update or Delete builder that contain the same calls, and keep the order of the calls on each clause (Columns, Values and Set count as one clause of Insert, Set and Using as one of Update, Where, And and Or as one), give the same SQL and the same arguments from String, Query and NamedQuery, or both panic. Columns and Values of an Insert may be swapped as well.", "quantifier": "all builders, all call sequences of any length with any arguments, all such reorderings", "why_tests_cant": "The sequences and their permutations are unbounded; a test fixes a few.", "anchors": ["builder/insert.go:Insert.Into", "builder/insert.go:Insert.Columns", "builder/insert.go:Insert.Values", "builder/insert.go:Insert.Set", "builder/insert.go:Insert.OnConflict", "builder/update.go:Update.Set", "builder/update.go:Update.Using", "builder/update.go:Update.Where", "builder/delete.go:Delete.Where", "builder/delete.go:Delete.Using"]}
{"id": "C57", "title": "Rendering panics exactly when something is missing", "statement": "Query() and NamedQuery() panic if and only if something that has to be written is missing: no column in a SELECT, no table, no value to set, a blank operand of a comparison, IN, BETWEEN, AND, OR or ON, a nil item, table or operand, at any depth of subqueries. String() panics exactly when Query() does or a driver.Valuer among the arguments returns an error. The panic is one of the seven messages of package stmt or the dereference of a nil that was given. Calls whose arguments have nothing missing give a statement that renders; an Update also needs a call that gives a value.", "quantifier": "all statements, all expressions and chains of calls of the API", "why_tests_cant": "Ranges over all nestings of conditions and subqueries and all chains of calls.", "anchors": ["stmt/select.go:Select.Write", "stmt/insert.go:Insert.Write", "stmt/update.go:Update.Write", "stmt/delete.go:Delete.Write", "stmt/infix.go:InfixExpression.Write", "stmt/in.go:In.Write", "stmt/between.go:Between.Write", "stmt/set.go:PairContainer.Values"]}
{"id": "C58", "title": "Slices given to a builder stay the caller's", "statement": "A call takes the values its slice arguments have at the time of the call: assigning elements of a slice, or appending to it, after it was passed to a builder does not change the query, and no call changes the caller's slice. It holds for every program that does not assign a slice a builder keeps and does not extend a version of a slice of WITH queries twice. []string, []interface{} and []Order are copied and may be assigned at any time. DistinctOn, GroupBy, Insert.Columns with []Column, Columns and Returning with []SelectExpression and the first With(queries...) keep the caller's array, so a later assignment changes the query; two builders that got one slice of WITH queries with spare capacity overwrite each other's queries.", "quantifier": "all programs that make slices, pass them to any number of builders, assign elements, append and print, in any order; all capacities chosen by append", "why_tests_cant": "Ranges over all interleavings of calls, assignments and appends and over the growth policy of the runtime.", "anchors": ["builder/builder.go:ToColumns", "builder/builder.go:ToSelectExpressions", "builder/select.go:Select.With", "builder/select.go:Select.GroupBy", "builder/select.go:Select.DistinctOn", "builder/select.go:Select.Columns", "builder/insert.go:Insert.Columns", "builder/insert.go:Insert.Returning", "builder/update.go:Update.Returning", "builder/update.go:Update.With", "builder/delete.go:Delete.Returning"]}
{"id": "C59", "title": "Insert builders and DoUpdate actions can be shared", "statement": "A program may call several methods on one Insert builder, pass the value of one DoUpdate(...) to several builders, and render any builder at any time and any number of times: each builder prints the SQL, and binds the values, of its own chain of calls. It holds for all programs in which every DoUpdate that is passed assigns something, and for all programs that use each builder for one call at most. After OnConflict(columns..., DoUpdate()), with nothing assigned, the clause counts as absent but its columns stay, and two later OnConflict calls on that builder share one array: the second replaces a column of the first.", "quantifier": "all programs that create, call and print Insert builders in any order and with any sharing; all growth policies of append; all sort functions that satisfy the contract of sort.Slice", "why_tests_cant": "Ranges over all trees of builders, all interleavings of calls and renderings, and the capacities chosen by the runtime.", "anchors": ["builder/insert.go:Insert.OnConflict", "stmt/conflict.go:OnConflict.IsEmpty", "stmt/conflict.go:ConflictUpdateAction.Write", "stmt/set.go:PairContainer.Values", "loukoum.go:DoUpdate"]}
{"id": "C60", "title": "Goroutines can derive from shared builders", "statement": "Any number of goroutines may start from the same Select builder, or from builders derived from one another, make any chain of calls and print the result. Whatever the schedule, each answers what its own chain prints (or panics as its own chain panics), and the builders they started from keep printing the same, as long as for each of joins, ORDER BY and WITH at most one goroutine appends to an array that has room behind the elements of the builder, and no goroutine started from a builder with more elements in that array. In particular: chains without Join, OrderBy and With need no condition, nor does a builder that has no joins, orders or WITH clause yet, nor one whose arrays are full. With room, two goroutines that call Join on one builder can both print the join of the second. Likewise for all four kinds of builders with calls other than Join, OrderBy, With, Set, Using and OnConflict, when the columns of an Update (or of DoUpdate) are already in order, as they are once it has been printed: the memory never changes.", "quantifier": "all memories, all builders, all chains of calls, all numbers of goroutines, all schedules of their memory accesses, all growth policies of append", "why_tests_cant": "Ranges over all interleavings of the goroutines, all chains of calls and the capacities chosen by the runtime; a race that a test does not hit is not seen.", "anchors": ["builder/select.go:Select.Join", "builder/select.go:Select.OrderBy", "builder/select.go:Select.With", "stmt/select.go:Select.Write", "builder/update.go:Update.Where", "builder/insert.go:Insert.Returning", "builder/delete.go:Delete.Where"]}
{"id": "C61", "title": "Only some arguments reach the SQL text unquoted", "statement": "The text of Query() and NamedQuery() is spelled with the library's own words, quoted names, numbers, placeholders and the texts that the caller gave to be written as they are: Raw, Order and its direction, the name of a WITH query, the argument and the name of an aggregate, the name of a function, a join type, Prefix, Suffix and Comment. Values are never in it. Every such text of a statement is an argument of one of the calls that made it or one of six the calls bring, and every name is part of a name in an argument, or is made of letters, digits, dots and underscores if it comes from the text of a join. So if no name has a double quote, no comment is given and each text written as it is stays within one statement (no ; or comment outside quotes, quotes closed), the SQL is one statement, whatever the values and the texts of joins are. Each of the listed arguments does reach the text unchanged, whatever it is.", "quantifier": "all constructors with all chains of calls and all arguments of Select, Insert, Update and Delete, conditions and subqueries at any depth; all values; all names, raw texts and join texts", "why_tests_cant": "A test tries a few malicious strings in a few places. That no other argument, in no combination of calls and nesting, reaches the text unquoted is a statement about all of them.", "anchors": ["builder/builder.go: ToColumns, ToSelectExpressions, ToTable, ToFrom, ToSuffix, ToPrefix, MergeSet", "builder/select.go", "builder/insert.go", "builder/update.go", "builder/delete.go", "stmt/*.go: Write", "format/format.go", "parser/join.go: ParseJoin", "lexer/lexer.go"]}
{"id": "C62", "title": "Executed, a statement affects exactly the rows and columns its calls describe", "statement": "Take a database that reads the text of Query() with its arguments as PostgreSQL reads SQL, and carries out statements on one table. A Select shows the items of exactly the rows that meet its Where/And/Or conditions, taken from the left in three-valued logic, in the asked order and window. Pages made with Limit(n).Offset(n*i) neither lose nor repeat a row. Count(\"*\") counts these rows. A Delete with the same conditions removes exactly these rows, returns them, and, if its conditions have no subqueries, finds none when run again. An Update writes, in exactly these rows, the last value given for each assigned column, and no other column; if these values have no subqueries and do not depend on the row, sending it again changes nothing. An Insert adds one row per given row, with the given values in the named columns and defaults in the others; if a constraint refuses one of them nothing is added. With DoNothing() exactly the rows that are in the way of no row of the table and no earlier added row are added; with DoUpdate(...) the rows in the way get the assigned columns and the other rows are added, if no row has to be written twice. Other rows and other tables stay as they were. An inserted row is found by the Select that asks for one of its values.", "quantifier": "all table contents; all engines (meaning of values, operators, functions, defaults, constraints, sort orders, subqueries); all conditions, chains of And/Or, assignments, values, rows, items, page sizes and page counts that the calls can describe", "why_tests_cant": "A test runs a few statements on a few rows. Here every table, every chain of conditions and every meaning of the operators is covered, including NULLs and any number of pages.", "anchors": ["builder/select.go:Select.Where, And, Or, OrderBy, Limit, Offset", "builder/delete.go:Delete", "builder/update.go:Update.Set, Using, Where", "builder/insert.go:Insert.Set, Columns, Values, OnConflict", "stmt/select.go:Select.Write", "stmt/delete.go:Delete.Write", "stmt/update.go:Update.Write", "stmt/insert.go:Insert.Write"]}
{"id": "C63", "title": "The three renderings are one statement", "statement": "Query() with its arguments, NamedQuery() with its arguments and String() are the same statement: the first two are read as the same statement, the third as this statement with literals in the place of the arguments, and a database that takes a literal for the value it stands for does the same with all three, on one table as on many, with joins, groups, subqueries, WITH, USING and ON CONFLICT.", "quantifier": "all Select, Insert, Update and Delete builders whose values have literals (integers, booleans, strings, byte slices, times, nil, Valuers of these), all databases, both settings of backslash escapes", "why_tests_cant": "Each rendering has its own way to write values; a test compares the texts of a few statements, not what a database does with them.", "anchors": ["builder/select.go:Select.String", "builder/select.go:Select.NamedQuery", "builder/select.go:Select.Query", "types/context.go", "format/format.go:Value"]}
{"id": "C64", "title": "Executed, joins and several tables combine exactly the rows they describe", "statement": "Take a database that reads the text of Query() with its arguments as PostgreSQL reads SQL. A Select with several tables in From and with joins shows the items of exactly the combinations of rows they describe and the conditions choose: From(a, b) every pair; an inner join the pairs of which its condition is true; a left join also the rows of the left table without a partner, with NULLs; a right join those of the right table; several joins one after the other. How a join is given, as text or as arguments, the sides of an equality swapped or not, does not matter. Count(\"*\") counts the combinations. Delete(a).Using(b) removes exactly the rows of a that meet the conditions with some row of b, and nothing else.", "quantifier": "all table contents; all engines (meaning of values, operators, functions, sort orders, subqueries); all numbers of tables and joins, all join kinds, join conditions, aliases, conditions, items and windows that the calls can describe", "why_tests_cant": "A test compares the text of a few joins. That the table, the kind and the condition of every join end up where the database reads them, for any number of joins in any order, is a statement about all programs and all tables.", "anchors": ["builder/select.go:Select.From, Join, Where, OrderBy, Limit, Offset", "builder/delete.go:Delete.Using", "builder/builder.go:ToTable, ToFrom", "stmt/join.go:Join.Write", "stmt/from.go:From.Write", "stmt/using.go:Using.Write", "stmt/on.go", "parser/join.go:ParseJoin"]}
{"id": "C65", "title": "Executed, subqueries, WITH, DISTINCT, groups and windows do what the calls say", "statement": "Take a database that reads the text of Query() with its arguments as PostgreSQL reads SQL. In(sub) chooses the rows whose column equals the first column of some row that sub shows when it is sent on its own; NotIn(sub) those known to differ from all of them, so none if there is a NULL; Exists(sub) all or none, NotExists(sub) the other way round; Equal(sub), GreaterThan(sub) and so on compare with the value sub shows. From of a name given with With(name, sub) shows the rows sub shows on its own. Adding Limit and Offset to any Select shows that part of what it shows without them. Adding Distinct() shows the same rows, each once. DistinctOn(columns) shows one of the rows for each combination of their values. OrderBy shows the same rows in another order. Having with a condition on columns that are shown keeps the rows of which it is true. GroupBy of the columns with Count(\"*\") shows each combination of values once with the number of rows that have it, and these numbers add up to the number of rows shown without groups.", "quantifier": "all table contents; all engines (meaning of values, operators, functions, aggregates, sort orders); all subqueries, tables, joins, columns and conditions that the calls can describe, nested to any depth; the subquery does not refer to the row in which it stands (for which it is enough that its names all stand for columns of its own tables)", "why_tests_cant": "A test compares the text of a few nested statements. That a subquery inside any statement asks the database exactly what it asks on its own, whatever its clauses and its arguments, and that a clause added to any statement changes its answer in just this way, ranges over all statements and all databases.", "anchors": ["stmt/expression.go:NewExpression", "stmt/in.go", "stmt/subquery.go", "stmt/infix.go", "stmt/with.go:With.Write, WithQuery.Write", "stmt/select.go:Select.Write", "stmt/groupby.go", "stmt/limit.go", "stmt/offset.go", "builder/select.go:Select.With, Distinct, GroupBy, Having, Limit, Offset", "loukoum.go:With, Exists, NotExists, Count"]}
{"id": "C66", "title": "Executed, Update, Delete and Insert with From, With, Using, OnConflict and subqueries change the rows that the calls say", "statement": "Take a database that reads the text of Query() with its arguments as PostgreSQL reads SQL. Update(t).From(o).Where(...) gives every row of t that meets the conditions with a row of o the assigned values, as they are beside one such row; the rows that meet them with none, and every other table, are as they were. With(name, sub) makes From(name) mean the rows that sub shows on its own. Set(Pair(column, sub)) and Set(columns).Using(sub) assign what sub shows on its own. Where(Condition(x).In(sub)) changes the rows whose x is among what sub shows. Delete(t).Using(others).Where(...) removes the rows of t that meet the conditions with some rows of the others, and no other rows; NotIn(sub) with a NULL in what sub shows removes nothing. Exists(sub), where sub compares its table with Raw(\"t.x\"), removes the rows of t with a match, NotExists(sub) those without. The Select with the table, columns and conditions of a Delete shows exactly what the Delete returns, and as many rows as the Update with them changes. Insert(t) adds the rows given by Set(...) or Values(...), with the given values, a subquery being what it shows, and defaults elsewhere; all of them, or none if a constraint refuses one. OnConflict(keys, DoNothing()) leaves out exactly the refused rows. OnConflict(keys, DoUpdate(...)) writes the assigned values, in which excluded.c is the value of the refused row, into the row in its way. OnConflict(keys, DoUpdate(Pair(c, Raw(\"excluded.c\")), ...)) makes every row in the way take over the columns c and adds the other rows; sent again, it changes nothing.", "quantifier": "all table contents; all engines (meaning of values, operators, functions, defaults, constraints); all tables, assignments, conditions, rows, conflict targets, subqueries and returned columns that the calls can describe", "why_tests_cant": "A test compares the text of a few statements. Which rows a data-changing statement touches, and that a preview with the same conditions agrees with it, is a matter of how a database reads the text with the arguments, for all contents of the tables and all conditions and subqueries.", "anchors": ["builder/update.go:Update.With, Set, Using, From, Where, Returning", "builder/delete.go:Delete.Using, Where, Returning", "builder/insert.go:Insert.Set, Columns, Values, OnConflict, Returning", "stmt/update.go:Update.Write", "stmt/delete.go:Delete.Write", "stmt/insert.go:Insert.Write", "stmt/set.go", "stmt/expression.go", "stmt/subquery.go", "loukoum.go:Raw, Exists, NotExists, With", "stmt/conflict.go", "loukoum.go:DoNothing, DoUpdate"]}
{"id": "C67", "title": "Equivalent conditions choose the same rows; And narrows, Or widens", "statement": "For every Select, Delete and Update program, conditions that are the same by the laws of logic give the same outcome: two And (or two Or) calls in the other order, And calls in sequence or nested in And(x, y) or x.And(y), Where after Where as And, the same condition said twice, and distribution of And over Or, each followed by any further calls. More generally any condition in Where, And, Or and Having can be exchanged for one that asks the same: by order, grouping, repetition, distribution and absorption of And and Or at any depth, In(v, ...) for Equal(v) Or ..., NotIn(v, ...) for NotIn(v) And ..., Between(a, b) for GreaterThanOrEqual(a) And LessThanOrEqual(b). The Select answers the same rows, with any joins, groups, order and limits; the Delete and the Update return the same rows and leave the same tables. One more And never adds a row to a row-by-row Select and never lets a Delete remove more; one more Or never drops a row and never lets a Delete remove less. With one more And an Update without From changes only rows that it changed before, and to the same values; with one more Or at least those.", "quantifier": "all programs, conditions (with subqueries and NULLs), databases and engines", "why_tests_cant": "A test compares two spellings on one database; the claim is for every pair of conditions related by the laws, every continuation of the calls, every three-valued truth of the parts and every database.", "anchors": ["builder/select.go: Where, And, Or", "builder/delete.go: Where, And, Or", "builder/update.go: Where, And, Or", "stmt/infix.go: InfixExpression.And, InfixExpression.Or", "stmt/where.go: Where.And, Where.Or", "loukoum.go: And, Or", "stmt/in.go: NewIn, NewNotIn", "stmt/between.go: NewBetween"]}
{"id": "C68", "title": "IsSelectBuilder, IsInsertBuilder, IsUpdateBuilder and IsDeleteBuilder tell the builders apart", "statement": "For every builder made with Select, Insert, Update or Delete and any methods, handed over as the Builder interface, exactly the function of its kind answers true and the three others answer false; and Query, NamedQuery and String give through the interface what they give on the builder. (False of the code for builders as the constructors and methods return them: the four functions look for pointers, so none of them recognises such a builder; only its address is recognised.)", "quantifier": "all builders of all four kinds after any calls, as values and as addresses; all values of the interface", "why_tests_cant": "The repository has no test of the four functions, and a test looks at a few builders; the claim is for every history of calls and everything the interface can hold.", "anchors": ["builder/builder.go: Builder, IsSelectBuilder, IsInsertBuilder, IsUpdateBuilder, IsDeleteBuilder", "builder/select.go: String, NamedQuery, Query", "builder/insert.go: String, NamedQuery, Query", "builder/update.go: String, NamedQuery, Query", "builder/delete.go: String, NamedQuery, Query"]}
{"id": "C69", "title": "Exactly the documented Go values are operands, and the driver gets them unchanged", "statement": "A comparison, In, NotIn, Between, Set or Values given nil, a string, a boolean, a number, a byte slice, a time, a Valuer, []int64, []string or a map hands exactly this value to the driver, or writes NULL for nil. A pointer to a time, an encoder or a value with a String method is replaced by the value it gives. Expressions and statements become SQL. Any other value, such as a value of a named type without methods, []int outside In, a struct or a nil pointer to a time, panics in the call that gets it and is never bound.", "quantifier": "all values of all types, all comparison methods, all columns and tables, lists of values of any length", "why_tests_cant": "The tests compare a few types with a few methods; the type switch has many cases, and each caller has to pass the value on without converting or losing it.", "anchors": ["stmt/expression.go:NewExpression", "stmt/expression.go:Value.Write", "stmt/encoder.go", "stmt/in.go", "stmt/between.go", "builder/builder.go:MergeSet", "builder/insert.go:Insert.Values"]}
{"id": "C70", "title": "A session of statements does what the calls say, in any mix of forms", "statement": "For every list of Select, Insert, Update and Delete statements that a program builds and sends one after the other, each by Query(), NamedQuery() or String() as it likes: each text is taken by the database for exactly one kind of statement, the rows that come back and the tables at the end are those of the statements that the calls describe, run in this order, and so they do not depend on the forms. A statement that the database refuses leaves the tables to the next one as they were. With Query() and NamedQuery() this holds for every database; with String() for every one that takes a literal for its value. A session of Selects changes no table. No text at all can be read as two kinds of statement, although Select and Update both may begin with WITH.", "quantifier": "all lists of statements, all choices of a form for each, all databases, engines and rules, all texts", "why_tests_cant": "A test runs a few statements in one form on one database; the claim is over histories of any length in which the effects of each statement feed the next, with every choice of forms.", "anchors": ["builder/select.go: String, NamedQuery, Query", "builder/insert.go: String, NamedQuery, Query", "builder/update.go: String, NamedQuery, Query", "builder/delete.go: String, NamedQuery, Query", "stmt/select.go: Select.Write", "stmt/update.go: Update.Write", "stmt/with.go: With.Write"]}
{"id": "C71", "title": "Join, From with Where, In, Exists and Using say the same in other words", "statement": "For every Select, Join(b, on) with an inner join after From(a) gives the same answer as From(a, b).Where(on) followed by the other conditions with And, whatever the other calls (With, groups, Having, Distinct, order, limits). A condition of the last join can be said in Where instead, if that join is inner. With LEFT or RIGHT in its last join, a row-by-row Select shows every row that it shows with INNER, as often and in the same order. Condition(x).In(Select(y).From(t2)) chooses the rows that Exists(Select(...).From(t2).Where(y = x)) chooses, NULLs or not. Delete(t1).Using(t2).Where(y = x), Delete(t1).Where(Exists(...)) and Delete(t1).Where(x In (...)) remove the same rows and leave the same tables.", "quantifier": "all programs, tables, join conditions, further conditions, databases and engines (for the laws with In and Exists: engines where = is symmetric)", "why_tests_cant": "A test compares two spellings on a few rows; the claim is for every database with any NULLs and duplicates, every join condition and every combination of the other calls.", "anchors": ["builder/select.go: Join, From, Where, And", "builder/delete.go: Using, Where", "stmt/join.go: NewInnerJoin, NewLeftJoin, NewRightJoin", "stmt/on.go: OnClause", "stmt/in.go: NewIn", "loukoum.go: Exists, On, AndOn"]}
{"id": "C72", "title": "Bytes, maps and pointers to valuers given as values are read when the statement is sent", "statement": "A []byte, a map or a pointer to a driver.Valuer given as a value is not copied: whatever a program calls, writes to what it has given and sends, in any order, each statement it sends, as Query, NamedQuery or String give it, is the one it would have built at that moment with what these hold then. What it writes changes neither the text of Query and NamedQuery nor whether a call panics.", "quantifier": "all programs of calls, writes and sent statements, on the four builders; all contents", "why_tests_cant": "Every interleaving of calls, writes and renderings, with references at any depth of conditions, rows, maps and subqueries.", "anchors": ["stmt/expression.go:NewExpression", "stmt/expression.go:NewValue", "types/context.go:StdContext.Bind", "builder/builder.go:MergeSet"]}
{"id": "C73", "title": "String() writes every value that a condition or an assignment takes as SQL", "statement": "Whatever value a comparison or an assignment accepts, the text of String() can be read as SQL and has in its place an expression that denotes the value, as Query() passes it.", "quantifier": "all values that NewExpression accepts, all comparisons, all names", "why_tests_cant": "Every kind of value with every content; a slice of any length with any text in its elements.", "anchors": ["format/format.go:Value", "stmt/expression.go:NewExpression", "types/context.go:RawContext.Bind"]}
{"id": "C74", "title": "What the calls accept is SQL", "statement": "If no call of a program panics and the statement renders, then the text of Query() is a statement that an SQL reader accepts.", "quantifier": "all programs of builder calls without Raw text, all names and values", "why_tests_cant": "Every combination of calls with every name, value and slice, empty ones included.", "anchors": ["stmt/expression.go:NewArrayExpression", "stmt/expression.go:NewArrayListExpression", "stmt/expression.go:Identifier", "stmt/column.go:Column.Write", "stmt/order.go:Order.IsEmpty", "stmt/with.go:With.Write", "builder/update.go:Update.Only"]}
