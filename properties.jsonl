{"id": "C01", "title": "Num strings of range-free numbers are read back exactly", "statement": "ArticleNumber::from_num_str(a.num_str()) returns a for every article number a without a range whose components are machine integers.", "quantifier": "every base number and every (arbitrarily long) list of branch numbers, all < 2^64", "why_tests_cant": "the list of branch numbers and the integers are unbounded", "anchors": ["src/article_number.rs: ArticleNumber::num_str, ArticleNumber::from_num_str"]}
{"id": "C02", "title": "Which ranged numbers survive the Num string", "statement": "A ranged article number survives num_str followed by from_num_str if and only if it has exactly one branch number; for every other ranged number the call still succeeds but returns a different number (the range is lost).", "quantifier": "every article number with a non-empty range", "why_tests_cant": "an exact iff over unbounded lists needs both directions for all numbers", "anchors": ["src/article_number.rs: ArticleNumber::num_str, ArticleNumber::from_num_str"]}
{"id": "C03", "title": "Reading a Num string is total and accepts exactly the documented grammar", "statement": "from_num_str never panics; it succeeds iff the text before the first ':' (and the text between the first and second ':' if present) is a '_'-separated list of decimal usize numbers, and then returns exactly those numbers.", "quantifier": "every string", "why_tests_cant": "the set of strings is infinite; acceptance must be characterised from both sides", "anchors": ["src/article_number.rs: ArticleNumber::from_num_str"]}
{"id": "C04", "title": "Num strings identify range-free numbers", "statement": "Two range-free article numbers with the same num_str are equal.", "quantifier": "every pair of range-free article numbers", "why_tests_cant": "pairs of unbounded lists", "anchors": ["src/article_number.rs: ArticleNumber::num_str"]}
{"id": "C05", "title": "Num strings are clean XML attribute values", "statement": "num_str only ever produces ASCII digits, '_' and ':' and is never empty, so it needs no XML escaping.", "quantifier": "every article number", "why_tests_cant": "all lists and integers", "anchors": ["src/article_number.rs: ArticleNumber::num_str"]}
{"id": "C06", "title": "Full-width digit rendering and reading are inverse", "statement": "parse_zenkaku_num(to_zenkaku_num(n)) returns n for every machine integer, and distinct integers get distinct renderings.", "quantifier": "every usize", "why_tests_cant": "2^64 values", "anchors": ["src/article_number.rs: to_zenkaku_num, parse_zenkaku_num"]}
{"id": "C07", "title": "Iroha tables are a bijection on 1..47", "statement": "Katakana and hiragana iroha letters: number->letter is defined exactly on 1..=47, letter->number inverts it, and no letter outside the image is read.", "quantifier": "every usize and every character", "why_tests_cant": "all characters and all integers must be covered", "anchors": ["src/article_number.rs: to_iroha_katakana, to_iroha_hiragana, parse_iroha_katakana, parse_iroha_hiragana"]}
{"id": "C08", "title": "Heading text round trip", "statement": "For each of part/chapter/section/subsection/division/article, reading the generated heading text (第…編/章/節/款/目/条 with の-branches and から…まで ranges, also ranges with branches) gives back the number, provided the kanji numeral crate writes the numbers with the twelve known characters and reads them back, and the text after a heading without range cannot be taken for its continuation. Hence headings identify numbers.", "quantifier": "every article number and each of the six heading kinds", "why_tests_cant": "unbounded branch lists, all integers", "anchors": ["src/article_number.rs: gen_articles_text, parse_article_number"]}
{"id": "C09", "title": "Ranges in paragraph labels lose the branch numbers of their end", "statement": "A generated paragraph label with a range is read with the first number of the end of the range only; whenever the end has branch numbers, the number read is a different one.", "quantifier": "every article number whose range has at least two components", "why_tests_cant": "quantifies over all numbers", "anchors": ["src/article_number.rs: paragraph_text, parse_article_number"]}
{"id": "C10", "title": "Paragraph label round trip", "statement": "Reading the generated full-width paragraph label gives back the number, when its range, if any, ends in a number without branches.", "quantifier": "every article number of machine integers without range or with a one-number range end, every following text that cannot be taken for a continuation", "why_tests_cant": "unbounded", "anchors": ["src/article_number.rs: paragraph_text, parse_article_number"]}
{"id": "C11", "title": "Ranges in item labels are never read back", "statement": "parse_item_number never returns a number with a range, whatever the label says; the label text itself is kept.", "quantifier": "every string", "why_tests_cant": "every string", "anchors": ["src/article_number.rs: parse_item_number"]}
{"id": "C12", "title": "Item label round trip for the supported numbering patterns", "statement": "For the kanji, full-width-digit, katakana and roman patterns, reading a generated item label (with any white space around it) returns base number, branch numbers and pattern, up to the exchange of the two roman patterns with parentheses (C50). Hiragana labels in parentheses lose the branch number 26 only; hiragana labels without parentheses panic as soon as there is a branch number or a range.", "quantifier": "every pattern among the supported ones, every number in the domain of the pattern, all white space around the label", "why_tests_cant": "unbounded branch lists and integers", "anchors": ["src/article_number.rs: item_text, num_to_str, parse_item_number, parse_item_number_base"]}
{"id": "C13", "title": "Alphabetic item labels cannot be generated", "statement": "Rendering a label with any full-width alphabet pattern panics for every number.", "quantifier": "every number and all four alphabetic patterns", "why_tests_cant": "all numbers", "anchors": ["src/article_number.rs: to_zenkaku_alphabet_upper, to_zenkaku_alphabet_lower"]}
{"id": "C14", "title": "Splitting a line into number and text loses only the separating white space", "statement": "split_number never fails or panics; if it returns something the line is number ++ white space ++ text, number is non-empty without white space, text is non-empty without line feed; it returns nothing only when no such division exists. A line without white space is divided before its last character.", "quantifier": "every line", "why_tests_cant": "every string", "anchors": ["src/article_number.rs: split_number"]}
{"id": "C15", "title": "A law written to an XML tree is read back identically", "statement": "For every law whose content avoids the constructs listed as lossy, reading the element tree produced by the writer returns an equal law (all nesting depths, all list lengths).", "quantifier": "every law value of every size and nesting depth in the round-trip domain", "why_tests_cant": "laws are unbounded recursive trees", "anchors": ["src/law.rs: Law::to_xml_element, Law::parser", "src/lib.rs: parse_xml, to_xml"]}
{"id": "C16", "title": "The round-trip domain is exact", "statement": "A law is read back identically if and only if it is in the round-trip domain; so the domain misses no law.", "quantifier": "every law value", "why_tests_cant": "both directions over infinite sets", "anchors": ["src/law.rs: Law::to_xml_element, Law::parser"]}
{"id": "C17", "title": "Articles, paragraphs and item trees are read back identically", "statement": "The same for every article, paragraph, item and subitem (levels 1 to 10) on its own.", "quantifier": "every article/paragraph/item/subitem value in the round-trip domain", "why_tests_cant": "unbounded trees", "anchors": ["src/article.rs: Article", "src/paragraph.rs: Paragraph, Item, Subitem1..Subitem10"]}
{"id": "C18", "title": "Inline text is read back identically", "statement": "Sentence, line, ruby, superscript, subscript, column and table contents are read back identically, including their order.", "quantifier": "every sentence, column, table value in the domain", "why_tests_cant": "unbounded lists and nesting through quoted structures", "anchors": ["src/sentence.rs: Sentence", "src/text.rs: Text, Ruby", "src/line.rs: Line", "src/class.rs: Column", "src/table.rs: Table"]}
{"id": "C19", "title": "Remarks do not survive", "statement": "Every written Remarks element is rejected by the reader because its label is not written; inside a note/style/format/figure/table structure it silently disappears.", "quantifier": "every Remarks value", "why_tests_cant": "all values", "anchors": ["src/remarks.rs: Remarks::to_xml_element, Remarks::parser", "src/structs.rs"]}
{"id": "C20", "title": "New provisions of an amendment do not survive", "statement": "No amendment provision with at least one new provision is read back identically.", "quantifier": "every AmendProvision with a non-empty list of new provisions", "why_tests_cant": "all values", "anchors": ["src/law.rs: AmendProvision::to_xml_element, AmendProvision::parser"]}
{"id": "C21", "title": "Horizontal and vertical alignment of table cells do not survive", "statement": "Every table cell with align or valign is read back with neither, and its rowspan replaced by the alignment.", "quantifier": "every TableColumn with an alignment", "why_tests_cant": "all values", "anchors": ["src/table.rs: TableColumn"]}
{"id": "C22", "title": "Double lines become dotted", "statement": "No value containing a double line style or double cell border is read back identically; a double border comes back dotted.", "quantifier": "every Line and TableColumn value", "why_tests_cant": "all values", "anchors": ["src/line.rs: LineStyle::from_attribute"]}
{"id": "C23", "title": "Formula numbers, TOC preamble labels and related-article numbers do not survive", "statement": "ArithFormula num is dropped; TOC preamble label overwrites the TOC label; Appdx related article number moves to the formula number.", "quantifier": "every value with the field present", "why_tests_cant": "all values", "anchors": ["src/contents.rs: ArithFormula", "src/table_of_contents.rs: TOC", "src/appdx.rs: Appdx"]}
{"id": "C24", "title": "Supplementary appendices are unreadable once written", "statement": "Every written SupplProvisionAppdxTable and SupplProvisionAppdx element is rejected by the reader.", "quantifier": "every value", "why_tests_cant": "all values", "anchors": ["src/suppl_provision.rs: SupplProvisionAppdxTable, SupplProvisionAppdx"]}
{"id": "C25", "title": "A law without number crashes the reader", "statement": "Reading back any written law with num = None panics, whatever else it contains.", "quantifier": "every law with num None", "why_tests_cant": "all laws", "anchors": ["src/law.rs: Law::parser, Law::to_xml_element"]}
{"id": "C26", "title": "An article without body crashes the reader", "statement": "Reading back any written article with neither paragraph nor supplementary note panics.", "quantifier": "every such article", "why_tests_cant": "all articles", "anchors": ["src/article.rs: Article::parser"]}
{"id": "C27", "title": "The reader crashes only for those two reasons", "statement": "Reading an element tree panics only if the root Law lacks a Num attribute or some Article element, anywhere in the tree, has only captions and titles as child elements.", "quantifier": "every element tree", "why_tests_cant": "every tree", "anchors": ["src/law.rs: Law::parser", "src/article.rs: Article::parser"]}
{"id": "C28", "title": "Unknown child elements are rejected", "statement": "In every strict structural element (law body, main provision, part..division, article, paragraph, items, sentence, ...) a child element with an unknown tag makes the read fail; no unknown structure is silently dropped.", "quantifier": "every element tree and every unknown tag", "why_tests_cant": "all trees, all tags", "anchors": ["src/result.rs: unexpected_tag", "src/*.rs: parser"]}
{"id": "C29", "title": "Comments and stray text before or between structural elements are ignored", "statement": "Trees that differ only in comments and other non-content nodes, in text between the children of structural elements, in an empty text inside an element that holds one text, in an empty label of a supplementary provision and in the order of attributes are read alike: the same value, the same error, or a panic in both cases. Deleting all non-element nodes from the child list of a structural element does not change the result of reading it.", "quantifier": "every element tree and every placement of comments and text", "why_tests_cant": "all placements", "anchors": ["src/*.rs: parser"]}
{"id": "C30", "title": "Only the named attributes matter and their order does not", "statement": "Two elements that agree on the name, the children and the attribute lookup function are read identically.", "quantifier": "every pair of such elements", "why_tests_cant": "all permutations and additions of attributes", "anchors": ["src/lib.rs: get_attribute, get_attribute_with_parse, get_attribute_opt_with_parse"]}
{"id": "C31", "title": "Missing or malformed required numbers are reported, not guessed", "statement": "Reading a part/chapter/section/subsection/division/article/paragraph without a Num attribute, or with one outside the grammar, returns an error.", "quantifier": "every element", "why_tests_cant": "all strings and trees", "anchors": ["src/article.rs", "src/paragraph.rs"]}
{"id": "C32", "title": "Boolean attributes", "statement": "An absent Delete/Hide/OldNum/... attribute reads as false, 'true'/'false' read as such, and any other text is an error.", "quantifier": "every attribute text", "why_tests_cant": "all strings", "anchors": ["src/lib.rs: get_attribute_opt_with_parse"]}
{"id": "C33", "title": "Reading keeps the document order", "statement": "The articles, paragraphs, items and sentences of the result are in the order of the elements in the input tree, one for each element.", "quantifier": "every element tree that is read successfully", "why_tests_cant": "all trees", "anchors": ["src/*.rs: parser"]}
{"id": "C34", "title": "Writing is injective on the domain", "statement": "Two different laws in the round-trip domain never produce the same element tree.", "quantifier": "every pair of laws", "why_tests_cant": "pairs of unbounded trees", "anchors": ["src/law.rs: Law::to_xml_element"]}
{"id": "C35", "title": "Reading and writing stabilise after one step", "statement": "If a tree is read, and what was read is written and read again, then the second result does not change any more when it is written and read; the same for every structure with machine-integer item numbers, read or not.", "quantifier": "every element tree", "why_tests_cant": "all trees", "anchors": ["src/lib.rs: parse_xml, to_xml"]}
{"id": "C36", "title": "Article listings are complete and ordered", "statement": "article_list_from_main_provision and article_list_from_suppl_provision return every article of the provision exactly once in document order, also as it stands in the XML that was read; paragraphs outside articles are returned in groups which, with the other children between them, give back the children.", "quantifier": "every main provision", "why_tests_cant": "unbounded nesting", "anchors": ["src/utils.rs: article_list_from_main_provision"]}
{"id": "C37", "title": "Articles listed with numbers", "statement": "with_number_article_list_* lists every article once in order, with a number for exactly the ranks of heading around it; the number for a division is that of the division, but the number for any other rank is that of the heading or article right below the heading of this rank (the numbers of the enclosing headings themselves are not noted).", "quantifier": "every main provision", "why_tests_cant": "unbounded nesting", "anchors": ["src/utils.rs: with_number_article_list_from_main_provision, article_list_from_part, ..."]}
{"id": "C38", "title": "Paragraph text flattening is complete and ordered", "statement": "The text list of paragraphs has exactly one entry for each paragraph, item and subitem at any depth, in document order, with the path of numbers leading to it and its text; only the text of a table in a sixth subitem is missing.", "quantifier": "every paragraph", "why_tests_cant": "unbounded item trees", "anchors": ["src/utils.rs: text_info_list_from_paragraph"]}
{"id": "C39", "title": "Table-of-contents listing", "statement": "The toc list has one entry for each heading and each article in document order, with its title and the numbers of the part, section and subsection around it; articles have their number in the place of the division's and none in their own, headings after articles show stale division numbers, and articles in a part after a chapter show its number; the list is computed from headings and articles in their order, and each row depends only on those up to it and outside all headings it starts anew.", "quantifier": "every TOC / main provision", "why_tests_cant": "unbounded nesting", "anchors": ["src/utils.rs: toc_list_from_*"]}
{"id": "C40", "title": "Plain-text parser may not terminate", "statement": "The parser of classified lines runs for ever exactly when, after lines that are read without trouble, there is a text line directly after a heading or caption (or a supplementary-provision line). Every line sequence is of one of four kinds: read to the end, given up at a misplaced line, panicking at an item below the tenth level, endless.", "quantifier": "every sequence of classified lines", "why_tests_cant": "non-termination cannot be observed by a test", "anchors": ["src/parse_from_text.rs: parse_body"]}
{"id": "C41", "title": "Plain-text parser keeps every line once and in order", "statement": "Whenever the parser returns a body, its contents are those of the lines, each once and in order, up to the end or to the first misplaced line (captions only if directly before an article), and its nesting is that of a one-pass outline machine; a sequence without misplaced, stuck or too deep lines always gives a body; the parser never returns an error.", "quantifier": "every sequence of classified lines", "why_tests_cant": "unbounded sequences", "anchors": ["src/parse_from_text.rs: parse_body, parse_article, parse_paragraph"]}
{"id": "C42", "title": "Lines silently dropped", "statement": "A paragraph or item line outside an article, a subsection line outside a section and a division line outside a subsection make the parser drop this line and all the following ones, without an error.", "quantifier": "every such sequence of lines", "why_tests_cant": "all texts", "anchors": ["src/parse_from_text.rs: parse_body"]}
{"id": "C43", "title": "Returning over two item levels nests deeper; an eleventh sublevel panics", "statement": "An item that continues neither the innermost level nor the level around it opens a new level, even if it has the numbering of an outer level, so that four items with patterns p, q, r, p get levels 0, 1, 2, 3. The parser panics exactly when a level below the tenth is opened, e.g. by twelve items each with a pattern different from the two before it.", "quantifier": "every sequence of classified lines", "why_tests_cant": "all texts", "anchors": ["src/parse_from_text.rs: parse_subitem1..parse_subitem10"]}
{"id": "C44", "title": "Paragraph numbering in parsed articles", "statement": "In every parsed body sentences are numbered from 1 in each paragraph and item, the first paragraph of an article has number 1, the paragraphs of the preamble are numbered from 0 and their only sentence has number 0.", "quantifier": "every sequence of classified lines", "why_tests_cant": "unbounded", "anchors": ["src/parse_from_text.rs: parse_article, parse_paragraph"]}
{"id": "C45", "title": "Deletion marks", "statement": "A parsed heading, article or item is marked as deleted iff its text is 削除 or （削除） up to white space around it.", "quantifier": "every sequence of classified lines", "why_tests_cant": "all strings", "anchors": ["src/parse_from_text.rs: parse_part … parse_subitem10"]}
{"id": "C46", "title": "Invalid dates crash parse_text", "statement": "parse_text panics whenever the calendar rejects the date (with month and day defaulting to 1) or its era is none of the five from Meiji on, whatever the text is; otherwise its outcome is that of the body, with that era. The year counts modulo 2^32.", "quantifier": "every text, year, month, day and every calendar", "why_tests_cant": "all integers", "anchors": ["src/lib.rs: parse_text"]}
{"id": "C47", "title": "Oversized ASCII numbers in headings crash the reader", "statement": "parse_article_number panics on every heading (with or without 第) whose ASCII number does not fit the machine integer.", "quantifier": "every n >= 2^64, each heading kind, every following text", "why_tests_cant": "infinitely many numbers", "anchors": ["src/article_number.rs: parse_article_number"]}
{"id": "C48", "title": "The separator ノ crashes the reader of paragraph labels", "statement": "parse_article_number panics on every full-width label with ノ between two numbers, although headings accept ノ.", "quantifier": "every two numbers, every following text", "why_tests_cant": "all numbers", "anchors": ["src/article_number.rs: parse_article_number"]}
{"id": "C49", "title": "Kana labels outside the iroha poem crash the reader", "statement": "parse_item_number panics on every label that consists of katakana (or hiragana) letters, with or without parentheses, and is not a single letter of the iroha poem.", "quantifier": "every non-empty kana string that is not an iroha letter", "why_tests_cant": "all strings", "anchors": ["src/article_number.rs: parse_item_number, parse_item_number_base"]}
{"id": "C50", "title": "Roman labels in parentheses change case", "statement": "A label generated with the upper-case roman pattern in parentheses is read with the lower-case pattern and vice versa, with the same numbers.", "quantifier": "every number with a roman numeral in I, X, L, C", "why_tests_cant": "all numbers and branch lists", "anchors": ["src/article_number.rs: num_to_str, parse_item_number_base"]}
{"id": "C51", "title": "Roman labels with V, D or M are not read", "statement": "A generated roman label whose numeral has a V, D or M is not recognised by parse_item_number, since these letters stay half-width.", "quantifier": "every number, all four roman patterns", "why_tests_cant": "all numbers", "anchors": ["src/article_number.rs: to_zenkaku_roman_upper, to_zenkaku_roman_lower, parse_item_number"]}
{"id": "C52", "title": "Single letters and their collision with roman numerals", "statement": "A single full-width letter that is no roman letter is read as its place in the alphabet, in either case and with or without parentheses; a label of letters with a roman letter is never read with an alphabetic pattern; alphabetic labels are ambiguous.", "quantifier": "every letter and every string of letters", "why_tests_cant": "all strings", "anchors": ["src/article_number.rs: parse_item_number_base, parse_zenkaku_alphabet, parse_roman"]}
{"id": "C53", "title": "Headings of ten thousand and more are not read", "statement": "A generated heading whose kanji numeral has a character other than the twelve known ones (such as 万) is not recognised.", "quantifier": "every number with such a numeral, every numeral crate", "why_tests_cant": "all numbers", "anchors": ["src/article_number.rs: gen_articles_text, parse_article_number"]}
{"id": "C54", "title": "Supplementary provisions in plain text are never recognised", "statement": "A line that starts with 附 is always plain text; no text has a line classified as a supplementary provision; and no parsed body has one, although the parser has code for them (its pattern is only tried on lines that cannot be split, and these have at most one character).", "quantifier": "every text and every line without a line feed", "why_tests_cant": "absence of an outcome over all texts; a sample only shows that one heading is missed", "anchors": ["src/parse_from_text.rs: parse_line_contents, parse_body"]}
{"id": "C55", "title": "Plain text as written is read as written", "statement": "Headings, articles, paragraphs and items with labels as generated from their numbers, captions and other text are classified as such with their numbers and texts, with any white space around them and after the label; a text made of such lines in a readable order is parsed without error, each line being kept once and in order.", "quantifier": "every text of such lines, every number for which the numeral routines round-trip", "why_tests_cant": "the statement is a round trip over unbounded texts and numbers", "anchors": ["src/parse_from_text.rs: parse_line_contents, parse_body"]}
{"id": "C56", "title": "A reference at the start of a line is taken for a heading", "statement": "Text whose first word starts with the number of a provision becomes a heading, article or paragraph with that number; the rest of the word is lost (in a line without white space all but its last character), and the kind is decided by the first of 編章節款目条 that occurs anywhere in the word.", "quantifier": "every such line", "why_tests_cant": "the loss concerns every line of this form whatever follows the number", "anchors": ["src/parse_from_text.rs: parse_line_contents"]}
{"id": "C57", "title": "Items labelled with full-width digits are read as paragraphs", "statement": "The label of an item in full-width digits without parentheses is the label of the paragraph with the same number, and every line with such a label is classified as a paragraph.", "quantifier": "every number and text", "why_tests_cant": "holds for all numbers, texts and white space", "anchors": ["src/parse_from_text.rs: parse_line_contents"]}
{"id": "C58", "title": "Plain text never gives an error but some lines panic", "statement": "parse_text's body never is an error; classification panics exactly when a line does, and then the text has no result whatever its other lines are; every line whose first word is kana (bare or in parentheses) without being a letter of the iroha poem does.", "quantifier": "every text", "why_tests_cant": "the panic depends on a class of lines, the absence of errors on all texts", "anchors": ["src/parse_from_text.rs: parse_line_contents, parse_body", "src/article_number.rs: parse_item_number"]}
{"id": "C59", "title": "Text of sentences as read", "statement": "The text listed for a sentence or paragraph that was read is the text of its XML: plain text and ruby bases in order, subscripts and superscripts with marks, also one level deep in formulas and quotations; text in lines is lost.", "quantifier": "every sentence and paragraph element that is accepted", "why_tests_cant": "unbounded mixed content", "anchors": ["src/utils.rs: sentence_element_to_str", "src/sentence.rs: parser"]}
{"id": "C60", "title": "Titles as read", "statement": "The title listed for a part, chapter, section, subsection or division that was read is the text of the title element it starts with: plain text, subscripts, superscripts and ruby bases.", "quantifier": "every heading element that is accepted", "why_tests_cant": "unbounded mixed content", "anchors": ["src/text.rs: to_string, from_children"]}
{"id": "C61", "title": "Plain documents are kept", "statement": "If a document has no remarks, appended tables or formulas of supplementary provisions, new provisions, preamble labels in a table of contents, related numbers of an appendix, numbered formulas, aligned cells, ranges whose start has not exactly one branch number, or unreadable item numbers, then what is read from it is kept by writing and reading.", "quantifier": "every element tree without that markup that is accepted", "why_tests_cant": "all documents at any depth; tells from the XML alone whether a program that rewrites laws is safe", "anchors": ["src/lib.rs: parse_xml, to_xml", "src/structs.rs", "src/table.rs", "src/paragraph.rs"]}
{"id": "C62", "title": "Nothing is invented", "statement": "Every part, at any depth, of what is read from a document is itself the reading of an element inside the document with the tag of this kind of part.", "quantifier": "every accepted element tree and every part of the result", "why_tests_cant": "unbounded depth and mixed recursion through forty readers", "anchors": ["src/parser.rs: Parser", "src/law.rs", "src/paragraph.rs", "src/table.rs"]}
{"id": "C63", "title": "Every element is read to exactly what the rules say", "statement": "For each of the forty-five kinds of element there is a rule naming the tags, attributes and child elements it is made of, which of several count and in what order; the reader returns a value exactly if the rules give that value, the rules have only one solution, and without an article that panics everything else is an error.", "quantifier": "every element tree, every kind of element, every value", "why_tests_cant": "an equivalence for all trees: also rules out results that no sample document shows, such as attributes taken from the wrong place, children dropped or accepted by mistake", "anchors": ["src/law.rs", "src/article.rs", "src/paragraph.rs", "src/sentence.rs", "src/table.rs", "src/structs.rs", "src/contents.rs", "src/suppl_provision.rs", "src/appdx.rs"]}
{"id": "C64", "title": "Texts of articles as they stand in the document", "statement": "The lines listed for an article that was read are those of its XML: one for each paragraph, item and subitem in document order, with the numbers in their Num attributes and the text of their sentences, columns or table; the text of the article is these lines joined by line feeds, and the text of a table is its header rows and its rows.", "quantifier": "every article, paragraph and table element that is accepted, any depth of items", "why_tests_cant": "unbounded trees; relates the listing to the document rather than to the parsed value, so a reader and a listing wrong in the same way are told apart", "anchors": ["src/utils.rs: text_from_article, text_info_list_from_paragraph, table_to_str", "src/paragraph.rs", "src/table.rs"]}
{"id": "C65", "title": "Headings and paragraph labels are read by their grammar", "statement": "For any text the result of reading a heading or paragraph number is the value given by a grammar: a numeral in one of three scripts, the unit character for headings, all branches with の or ノ that follow, and the end of a range only if it is complete up to まで; with the exact rules for numbers too large, for ノ, and for what is dropped or panics.", "quantifier": "every text, every numeral crate", "why_tests_cant": "an equivalence over all texts, including the malformed ones; the reader is a backtracking expression with twelve groups", "anchors": ["src/article_number.rs: parse_article_number"]}
{"id": "C66", "title": "Texts of different headings differ", "statement": "The text written for a part, chapter, section, subsection, division or article begins with 第, its number and the character of that kind, and the texts of headings of different kinds are never equal.", "quantifier": "all numbers, all pairs of kinds", "why_tests_cant": "all pairs of numbers and kinds", "anchors": ["src/article_number.rs: part_text, chapter_text, section_text, subsection_text, division_text, article_text"]}
{"id": "C67", "title": "Item labels are read by their grammar", "statement": "A text is read as an item label exactly when, without the white space around it, it can be divided into a number, branches joined by の and perhaps the end of a range. Of several divisions the longest number, then the longest branches count. The end of the range has no effect; the branches are cut again at every の and each piece is read from its start; the number of a word is given by its letters (iroha, kanji numeral, full-width digits, roman numeral or alphabet), and a word without a number is a panic.", "quantifier": "every text, every numeral and roman crate", "why_tests_cant": "an equivalence over all texts; hiragana labels are ambiguous because の, から and まで are hiragana themselves, and the backtracking expression decides between exponentially many divisions", "anchors": ["src/article_number.rs: parse_item_number, parse_item_number_base"]}
{"id": "C68", "title": "Lines are classified by these rules and no others", "statement": "A line of plain text is a caption if it is one text in parentheses; otherwise the word before its first white space (or all but its last character) decides: a number by C65 makes it a heading of the kind whose character occurs first in the list of kinds, or a paragraph; otherwise a label by C67 makes it an item; otherwise it is text.", "quantifier": "every line without line feed, every numeral and roman crate", "why_tests_cant": "an equivalence over all lines with all outcomes, including panics", "anchors": ["src/parse_from_text.rs: parse_line_contents", "src/article_number.rs: split_number"]}
{"id": "C69", "title": "Writing XML text returns text or the I/O error", "statement": "to_xml returns exactly the bytes that the XML crate emits if the emission ends well and each buffer by itself is UTF-8, and otherwise the I/O error; it never panics and its result is text. write_file leaves in an honest writer all bytes emitted, or returns the I/O error and leaves a first part of them; into a writer that never fails it writes what to_xml returns.", "quantifier": "every law, every XML crate (any list of buffers), every writer that takes part of what it is given, is interrupted or fails", "why_tests_cant": "all byte strings (the UTF-8 check is proved to accept exactly the encoded scalar values), all buffer divisions, all writers", "anchors": ["src/lib.rs: WritableString, to_xml, write_file, gen_config"]}
{"id": "C70", "title": "A law comes back from its XML text in its tidy form", "statement": "If the XML crate keeps a tree up to what XML text can express, then the text of a law that survives writing is read back as the law with neighbouring pieces of text joined and pieces of blanks left out; the law itself comes back exactly when it survives writing and has no such pieces; the second time nothing changes; the same through a file. A small XML printer and reader meets the hypothesis for every law.", "quantifier": "every law, every XML crate that keeps the tree written, every honest writer that does not fail", "why_tests_cant": "induction over the 47 mutually recursive kinds of parts of a law, together with C16 and C29", "anchors": ["src/lib.rs: parse_xml, parse_xml_file, to_xml, write_file", "src/*.rs: to_xml_element, parser"]}
{"id": "C71", "title": "A law file that is read, written and read again gives the same law", "statement": "If a law is read from the text of a document without the markup that the writer drops (plain) in which no two texts stand side by side, no text is blank and every line can be read (neat), then the text written of it is read as the same law. From a plain document that is not neat it is read as its tidy form. What is read of a neat document is always tidy.", "quantifier": "every text, every XML crate that reads it to such a document and keeps the tree written", "why_tests_cant": "all documents and all laws; combines the rules of reading (C63), the round-trip domain (C16, C61) and what XML text keeps (C70)", "anchors": ["src/lib.rs: parse_xml, to_xml", "src/*.rs: parser, to_xml_element"]}
{"id": "C72", "title": "Accessors of the listings", "statement": "Each setter of an article with numbers and of a table-of-contents entry sets what its getter returns and nothing else, except the setter of the article number of an entry: it overwrites the number of the division. No sequence of setter calls gives an entry with an article number, and every entry without one can be made.", "quantifier": "every record, every value, every sequence of setter calls", "why_tests_cant": "all sequences of calls of any length", "anchors": ["src/utils.rs: WithNumberArticle, Toc (set_article)"]}
{"id": "C73", "title": "An error names a fault of an element of the document", "statement": "If a document is refused with an error then the document contains an element with the fault that the error describes: a required attribute that is absent, an attribute with a value that is not allowed, a number with a piece that is not a number, a child element that has no place there, a first child that should be another one, or a required child that is missing; and the tags and attributes in the error are those of that element (with the fixed misspellings of the source). So a law in which no element has such a fault and no article panics is read.", "quantifier": "every element tree, every kind of element, every error", "why_tests_cant": "all documents and all errors of some sixty sorts of element", "anchors": ["src/result.rs: Error", "src/*.rs: parser"]}
{"id": "C74", "title": "Which laws read from plain text can be stored as XML", "statement": "A law read from plain text comes back unchanged from its XML tree exactly if its own number is given and can be stored, its dates are machine integers, and every heading, article or paragraph line that was read has a number without a range or with exactly one branch; all numbers of lines are machine integers whatever the text says. From XML text it comes back unchanged exactly if, in addition, no article was read and no text is blank (an article from plain text has an empty title, which XML text does not keep).", "quantifier": "every text, every converter of numerals, every calendar, every set of arguments, every XML crate that keeps the tree", "why_tests_cant": "needs the outcome of two parsers and a writer for all texts", "anchors": ["src/parse_from_text.rs: parse_body", "src/lib.rs: parse_text, to_xml"]}
{"id": "C75", "title": "The message of an error says which error it is", "statement": "Two errors with the same message are equal, if the name that the message mentions first has no space. The errors of all readers are of this sort, for every document whose tags have no space; the same for errors of parse_xml.", "quantifier": "every error, every document, every reader, every XML crate", "why_tests_cant": "injectivity of the message over all names and texts; a test compares a few messages", "anchors": ["src/result.rs: Error, Display"]}
{"id": "C76", "title": "Building texts", "statement": "The string of a text is the concatenation of its strings, raised and lowered strings and ruby bases, without lines and annotations. Every sequence of add_* calls adds exactly what it should at the end; every text comes from exactly one sequence of single additions. A writing mode changes neither the string nor the stored nodes. Reading one element is reading a list of one, never an error; reading and writing split over concatenation. A text comes back from its nodes exactly if its rubies and lines do; its string comes back if ruby bases are plain, as they are in all texts read.", "quantifier": "every text, every sequence of calls, every list of nodes", "why_tests_cant": "arbitrary sequences of calls, nested rubies and node lists; the tests have one ruby", "anchors": ["src/text.rs: Text::new, from_children, from_value, add_text, add_string, add_ruby, add_line, add_sup, add_sub, with_writing_mode, to_children, to_string", "src/text.rs: impl Parser for Text", "src/text.rs: TextWithWritingMode"]}
{"id": "C77", "title": "Which law bodies plain text can give", "statement": "The law bodies that the plain-text parser gives are exactly those of one shape: a heading has its articles before its headings; headings stand beside each other only if the second could not have belonged to the first; the numbers of sentences and of preamble paragraphs count; the items below an item share one labelling pattern that differs from those of the item and of the item around it, and an item with a following sibling has no items below its last one. So a list whose items return two levels never results. This holds for lines restricted in any way, in particular for the lines that texts are classified as; a body whose lines can be written with generated labels comes from a text.", "quantifier": "every body, every restriction of lines, every text, every converter of numerals", "why_tests_cant": "an exact image over all texts and all bodies, in both directions", "anchors": ["src/parse_from_text.rs: parse_body, parse_part, parse_chapter, parse_section, parse_subsection, parse_division, parse_article, parse_paragraph, parse_subitem1..parse_subitem10"]}
{"id": "C78", "title": "A law printed line by line is read back", "statement": "A law body that plain text can give at all (C77) is read from its own lines: headings and articles with their number_text, paragraphs and items with generated labels, further sentences as lines of text, for every choice of labelling patterns of which neighbouring three levels differ, and any white space around and after labels. Every such body has such lines. So a body that was read, printed and read again is the same.", "quantifier": "every body, every scheme of patterns, every layout, every converter of numerals", "why_tests_cant": "composition of three modules over all bodies and schemes", "anchors": ["src/article.rs: number_text of Part, Chapter, Section, Subsection, Division, Article", "src/parse_from_text.rs: parse_body", "src/article_number.rs: part_text ... article_text, paragraph_text, item_text"]}
{"id": "C79", "title": "Listings of a law read from plain text, in terms of its lines", "statement": "For a law body read from classified lines, the listing of articles and texts has, for every article line read, its number and one row for the article's first paragraph and for every paragraph and item line after it, with the numbers on the way to it and the text of the line followed by that of the text lines right after it; the table of contents has one entry for every heading and article line with the headings that are open there; and the articles are listed with just those headings around them.", "quantifier": "all lists of classified lines", "why_tests_cant": "relates two modules (parser and listings) for all nestings of headings and items", "anchors": ["src/parse_from_text.rs: parse_body", "src/utils.rs: article_list_from_main_provision, text_info_list_from_paragraph, toc_list_from_main_provision, with_number_article_list_from_main_provision"]}
{"id": "C80", "title": "How every reading ends", "statement": "For every type, a table lists the checks that its reader makes on an element, in order: the tag, each attribute, the children one after the other with the checks for each tag, the required children. A reading of an element ends with a given error exactly if the first check that fails, in this order and depth first, fails with that error; it gives a value exactly if no check fails, and panics exactly if the first failure is one of the two panicking checks. In particular it is determined exactly which inline elements and remarks are silently dropped, and for a number which piece is reported.", "quantifier": "all elements, all types of the schema, and the law itself", "why_tests_cant": "which of several faults is reported depends on the order of all checks of all readers", "anchors": ["src/*.rs: Parser::parser of every type", "src/lib.rs: get_attribute, get_attribute_with_parse, get_attribute_opt_with_parse", "src/article_number.rs: from_num_str", "src/law.rs: Law::parser"]}
{"id": "C81", "title": "What follows a fault does not matter", "statement": "If an element is refused with an error other than that of a missing tag then it is refused with the same error whatever nodes are put after its children. Errors for missing tags, panics, and the error for a list without children do not have this property.", "quantifier": "all elements with children, all nodes put after them", "why_tests_cant": "quantifies over all continuations of a document", "anchors": ["src/*.rs: Parser::parser of every type", "src/law.rs: Law::parser"]}
{"id": "C82", "title": "Which trees are written", "statement": "For every type, a table gives the tag, the attributes with their possible values, and the content as a regular expression over texts, elements of other types and elements with a fixed tag. An element (with everything inside) is as the table says exactly if, up to the order of attributes, it is what is written for some value of the type; the same for a law. Elements that differ only in the order of attributes are read to the same law.", "quantifier": "all elements, all types of the schema, and the law itself", "why_tests_cant": "tests see the tree for some values; this fixes the order of children, the tags and the attributes for all values, and that nothing else is ever written", "anchors": ["src/*.rs: ToXmlElement::to_xml_element of every type", "src/article_number.rs: num_str", "src/law.rs: Law::to_xml_element"]}
{"id": "C83", "title": "One text for each index", "statement": "In the listing of the texts of some paragraphs no index occurs twice exactly if the numbers of the paragraphs differ and, at every depth, the numbers of sibling items differ; then an index has one text. Reading does not ensure this.", "quantifier": "all lists of paragraphs, all depths of items", "why_tests_cant": "a test compares the listing of some paragraphs; uniqueness of indices is a statement about all pairs of entries of all listings", "anchors": ["src/utils.rs: text_info_list_from_paragraph, TextIndex", "src/utils.rs: text_list_from_subitem1 .. text_list_from_subitem10"]}
{"id": "C84", "title": "Nothing is lost through serde", "statement": "Every value of each of the 110 types with derive(Serialize, Deserialize), and so every law, is read back unchanged from the document written for it; different laws have different documents. (The XML tree does lose something of some laws.)", "quantifier": "all 110 serialisable types, all values of each", "why_tests_cant": "no test serialises anything; the types are mutually recursive, so their values are not finitely many", "anchors": ["Cargo.toml: serde with derive", "src/law.rs: Law", "every derive(Serialize, Deserialize) in src/"]}
{"id": "C85", "title": "Which serde documents are read, and as what", "statement": "For each of the 110 serialisable types: a document is read exactly if it has a normal form with respect to the declaration of the type, the document written for what is read is this normal form, the documents that are written are those equal to their normal form, and two documents are read as the same value exactly if their normal forms are equal.", "quantifier": "all 110 serialisable types, all documents", "why_tests_cant": "a test reads some documents; this decides all of them, including those that must be refused", "anchors": ["src/law.rs: Law", "src/article_number.rs: ArticleNumber", "every derive(Serialize, Deserialize) in src/"]}
{"id": "C86", "title": "What does not matter in a serde document", "statement": "For each of the 110 serialisable types: documents that differ in the order of the entries of objects, at any depth, are read alike; a document that is read is read as the same value without the entries whose key is no field and no variant of any type; a written document is read back also without its entries that are null. Adding an undeclared entry is not always possible.", "quantifier": "all 110 serialisable types, all documents, all depths", "why_tests_cant": "permutations and omissions at every depth of every document cannot be listed", "anchors": ["src/law.rs: Law", "every derive(Serialize, Deserialize) in src/"]}
{"id": "C87", "title": "Listings of a law read from XML, in terms of its tree", "statement": "For a main or supplementary provision read from an XML tree, the table of contents has one entry for every Part, Chapter, Section, Subsection, Division and Article element, in document order, with the title written there and the numbers written on the elements around it (as far as C39 lists numbers at all), and the listing of articles with numbers has one article for every Article element, read from that element, with the headings around it. In a law these are the last MainProvision and all SupplProvision elements of its body.", "quantifier": "all XML trees that are read", "why_tests_cant": "relates the reader and the listings for all nestings of headings", "anchors": ["src/law.rs: MainProvision::parser", "src/suppl_provision.rs: SupplProvision::parser", "src/utils.rs: toc_list_from_main_provision, toc_list_from_suppl_provision, with_number_article_list_from_main_provision, with_number_article_list_from_suppl_provision"]}
{"id": "C88", "title": "Implementations that nothing calls", "statement": "The reader of Struct (never called) reads an element exactly if it is one of the four structures and the reader of that structure reads it, and reports any other tag as a missing Struct; items and paragraphs read their structures just as it does; what the writer of Struct gives comes back through it exactly if the value inside does. The writer of RemarksLabel (never called either) gives what the reader of labels reads back, exactly if the text of the label comes back; with a call of it in the writer of Remarks, remarks, which now never come back (C19), would come back exactly if the text of the label and the contents do.", "quantifier": "all XML elements, all structures, all remarks", "why_tests_cant": "no code path of the crate reaches these functions, so no test of the public interface does", "anchors": ["src/structs.rs: impl Parser for Struct, impl ToXmlElement for Struct", "src/remarks.rs: impl ToXmlElement for RemarksLabel, Remarks", "src/paragraph.rs: Paragraph, Item"]}
{"id": "C89", "title": "What the results of the functions on XML text stand for", "statement": "parse_xml_file gives the I/O error exactly if the file cannot be read and the XML error exactly if its contents are no XML; parse_xml never gives the I/O error and gives the XML error exactly if the text is no XML; every other result, value or error, is the one that the tree of the text gives. write_file, on a writer of any behaviour, ends exactly as the emitted strings are taken one after the other: nothing taken or a failed call is the I/O error, an interrupted call is repeated, and it panics only on a writer that claims to have taken more than it was given.", "quantifier": "all file systems, paths, byte strings, writers (any state type, any behaviour), laws, and all behaviours of crate xmltree", "why_tests_cant": "quantifies over every writer and every behaviour of the XML crate, including writers that are interrupted, take part of the data or lie", "anchors": ["src/lib.rs: parse_xml, parse_xml_file, to_xml, write_file", "src/result.rs: Error"]}
{"id": "C90", "title": "Order and repetition of child elements", "statement": "In paragraphs, items, law bodies, tables, remarks, classes, amendments, supplementary provisions, appendices and tables of contents the order of child elements of different sorts does not matter: with the same child elements, in the same order within each sort, the value read is the same. The same holds for articles as long as caption and title stand before the paragraphs. Of child elements of which a value has only one (titles, captions, notes, the main provision, ..), the last counts: an element with two of them is read exactly if it is read with either alone, and then to the value without the first.", "quantifier": "all types, all elements, any number of other child elements around", "why_tests_cant": "all permutations and all repetitions of child elements of 33 types", "anchors": ["src/paragraph.rs: Paragraph, Item", "src/law.rs: LawBody", "src/article.rs: Article", "src/table_of_contents.rs: TOC", "src/appdx.rs: AppdxTable, Appdx", "src/remarks.rs: Remarks"]}
{"id": "C91", "title": "Layout of plain text", "statement": "Indentation, white space at the end of lines, the convention for the ends of lines (LF, CR LF) and a line feed at the end of the text do not matter: parse_text and parse_body give the same result, value or panic or endless run, for texts whose lines agree up to white space at both ends. Blank lines do matter. A line is read as an empty text exactly if it is blank; directly after a heading or a caption it lets the parser run for ever, everywhere else it adds one empty sentence and nothing else, and a text that starts with one gets a preamble.", "quantifier": "all texts, lines, codecs, calendars, titles and other arguments of parse_text", "why_tests_cant": "The two texts range over all layouts of all texts, and that the parser never ends cannot be observed by running it.", "anchors": ["src/parse_from_text.rs: parse_body, LineContents", "src/lib.rs: parse_text"]}
{"id": "C92", "title": "Derived equality", "statement": "For every type of the library, == (as derive(PartialEq) generates it) is true of two values exactly if they are the same value, down to the last nested part; two laws are equal exactly if their serialised documents are. The comparison of item forms that steers the reader of plain text is the derived one.", "quantifier": "all pairs of values of every type, of any depth", "why_tests_cant": "It is a statement about all pairs of values of some hundred mutually recursive types.", "anchors": ["src/law.rs: Law, PartialEq, Eq", "src/article_number.rs: ArticleNumber, ItemNumber, ItemPattern", "src/utils.rs: TextIndex, WithNumberArticle, Toc", "src/parse_from_text.rs: LineContents"]}
{"id": "C93", "title": "Derived hash", "statement": "The calls that derive(Hash) makes to the hasher are determined by the declarations of the types (fields in the order of declaration, variants numbered by position, lengths before the elements of vectors), are the same exactly for equal values, and no value's calls are a proper prefix of another's of the same type; so values are told apart also when they are hashed one after the other.", "quantifier": "all values of every type that derives Hash", "why_tests_cant": "That no two different values share their calls is a statement about all pairs of values.", "anchors": ["src/law.rs: Law, Hash", "src/article_number.rs: ArticleNumber, ItemNumber", "src/utils.rs: TextIndex, WithNumberArticle, Toc"]}
{"id": "C94", "title": "Reading is local", "statement": "Replacing an element anywhere in an XML tree by another element of the same kind, both readable, changes the outcome of reading the tree in at most one place of its serialised document, from the document of the one to that of the other, and never changes whether or with which error the tree is rejected. Elements that are read alike (even if rejected alike) can be exchanged anywhere, in any law. Replacing an article or heading below headings of a provision changes the listing of articles exactly by the articles of that element. It exchanges the rows of that element in the table of contents, where the rows before it and those after the outermost heading around it are the same and the rows between still show the same headings and articles, though not necessarily the same chapter number. Replacing it by an element with the same headings and articles by number and title leaves the table of contents as it is.", "quantifier": "all trees, all places in them, all pairs of elements of any of the 64 kinds", "why_tests_cant": "It quantifies over all contexts of any depth and over all pairs of subtrees.", "anchors": ["src/law.rs: Law::parser, LawBody::parser, AmendProvision::parser", "src/paragraph.rs: Paragraph::parser, Item::parser", "src/article.rs: Article::parser, Part::parser, Chapter::parser", "src/utils.rs: with_number_article_list_from_main_provision, with_number_article_list_from_suppl_provision", "src/utils.rs: toc_list_from_main_provision, toc_list_from_suppl_provision"]}
{"id": "C95", "title": "Plain text can be read in parts", "statement": "If lines are read to the end and the line after them starts anew (a part; a chapter with no part before; a section with no chapter before; a caption or an uncaptioned article with no heading before), the law body of all lines is that of the first lines followed by that of the others, and crashes or runs for ever just if the others alone do; the same of a text with a line feed at its end and a text after it. If the first lines are not read to the end, what follows them does not matter. Exchanging the lines of one article for those of another article, anywhere, changes the listing of the law body by that article and nothing else.", "quantifier": "all lines before and after the cut, all texts, all converters of numerals, all pairs of articles", "why_tests_cant": "It quantifies over all pairs of sequences of lines of any length and over all contexts of an article.", "anchors": ["src/parse_from_text.rs: parse_body, parse_part, parse_chapter, parse_section, parse_article"]}
{"id": "C96", "title": "Which values can be read from XML", "statement": "A value of any type of the schema is the reading of some element exactly if, everywhere in it: no line or cell border is double, every number is made of machine integers, the base text of rubies is plain, every item and class has a sentence, a column or a table, and every article a paragraph or a supplementary note; likewise a law. One writer, which is the crate's own with its slips mended and agrees with it on everything that survives it, is read back to every such value; so every other loss of a round trip is the crate's writer's, not the reader's. The same for texts: what any text is read as meets the conditions, and the text of the mended tree of a law that meets them is read as the law with its texts tidied; so a tidy law is the reading of some text exactly if it meets them.", "quantifier": "all values of the 45 types of the knot, all laws, all elements, all XML texts and all XML crates that keep the tree", "why_tests_cant": "That no element whatever is read as a given value, and that the conditions are complete, quantifies over all documents and all values.", "anchors": ["src/parser.rs: Parser", "src/to_xml.rs: ToXmlElement", "src/article_number.rs: from_num_str, num_str", "src/remarks.rs", "src/law.rs: AmendProvision", "src/table.rs: TableColumn", "src/suppl_provision.rs", "src/contents.rs: ArithFormula", "src/lib.rs: parse_xml"]}
{"id": "C97", "title": "Derived debug output", "statement": "In both styles ({:?} and {:#?}), and whichever characters the standard library writes as themselves, the Debug text of a value of any serialisable type, of a row of a listing, of an error or of a line of plain text (a private enum) determines the value (two values have the same text exactly if == holds of them), and where it ends if no letter, digit or underscore follows. For errors this is unlike the message (C75), which different errors can share.", "quantifier": "all values of every type whose texts are UTF-8, all tables of printable characters, both styles, all depths of nesting", "why_tests_cant": "That no two of infinitely many nested values with arbitrary texts (quotes, brackets, backslashes, line breaks) are printed alike is a statement about all pairs.", "anchors": ["src/*.rs: derive Debug", "src/result.rs: enum Error", "src/utils.rs: struct WithNumberArticle, struct Toc", "src/parse_from_text.rs: enum LineContents"]}
{"id": "C98", "title": "Debug output has no control characters", "statement": "If control characters are not among those written as themselves, {:?} of a value of any serialisable type or of a line of plain text is a single line without control characters, and {:#?} contains no control character but line breaks, whatever the texts of the value are.", "quantifier": "all values of every serialisable type whose texts are UTF-8, all tables of printable characters without control characters", "why_tests_cant": "Texts of laws are arbitrary; the claim covers every text at every place of every value.", "anchors": ["src/*.rs: derive Debug"]}
{"id": "C99", "title": "What reading plain text prints", "statement": "parse_text prints to standard output: for each line that is neither a caption nor of at most one character its first word and the rest; if the word is no number of a heading or paragraph also ok!!! or err!!, and in the latter case the line once more. Lines are printed in order up to the first one that panics, also if the parser never ends, and nothing if the date is invalid. At most three lines are printed for each line of the text; nothing is printed only for texts of captions and one-character lines. If standard output fails after n lines, a text for which more are printed panics, however well it could be read.", "quantifier": "all texts, dates and codecs", "why_tests_cant": "Quantifies over all texts; the tests never look at standard output.", "anchors": ["src/parse_from_text.rs: parse_line_contents, parse_body", "src/article_number.rs: parse_item_number", "src/lib.rs: parse_text"]}
{"id": "C100", "title": "Which texts are not told apart", "statement": "Two texts give the same law body exactly if the titles are the same and the lines that are read (up to the end or the first misplaced line) are the same one by one, but for captions that do not stand directly before an article, which are lost, and for how the labels of items are written: only their numbers and levels count. So nothing else of the classified lines is lost, and two texts that differ in any other way give different law bodies. Laws of parse_text are the same exactly if, besides, the date, type, language and numbers given by the caller are. Which lines are read is determined by the lines.", "quantifier": "all texts of Unicode characters, titles and codecs", "why_tests_cant": "Compares all pairs of texts: that nothing else is lost says something about every pair with different lines.", "anchors": ["src/parse_from_text.rs: parse_body, parse_article, parse_paragraph, parse_subitem1, parse_subitem10"]}
{"id": "C101", "title": "Matches are the leftmost-first ones", "statement": "For every regular expression and text the match used is the one that takes the earlier alternative, or goes on with a repetition, at the first place where it differs from any other match; its groups are the texts read there, there is only one such match, and none is reported exactly if there is none. In the anchored expressions of the crate a group takes part at most once and what is repeated always reads something, so neither the choice between repeated groups nor empty repetitions matter. The unanchored test for Roman letters succeeds exactly if the expression matches at some place of the text.", "quantifier": "all regular expressions of the model and all texts; for the groups and repetitions, all anchored expressions of the crate and all texts", "why_tests_cant": "The preferred match is compared with all other matches of a text, of which there can be exponentially many, for all texts.", "anchors": ["src/article_number.rs: parse_article_number, parse_item_number_base, split_number, parse_item_number", "src/parse_from_text.rs: parse_line_contents"]}
{"id": "C102", "title": "The expressions in the source are the ones modelled", "statement": "Each regular expression, as the string in the source, is well-formed in the syntax of the crate regex, is anchored (but for the test for Roman letters), and has for every text the same matches in the same order as the expression of the model, so what is reported is the preferred match of the expression in the source. The reader of patterns accepts exactly what its grammar writes, with the structure the grammar gives, which is unambiguous.", "quantifier": "all expressions in the source and all texts; for the syntax, all strings", "why_tests_cant": "Two expressions can agree on every text tried and differ in one character of one class; the equality is for all texts and all Unicode characters.", "anchors": ["src/article_number.rs: parse_article_number, parse_item_number_base, split_number, parse_item_number", "src/parse_from_text.rs: parse_line_contents"]}
{"id": "C103", "title": "Layout of the indented Debug output", "statement": "{:#?} of a value of any serialisable type, and of a listed article or a row of the table of contents, is what the padding writer of the standard library gives: each field, element or content on lines of its own, followed by a comma, with four more spaces at the start of every line than the value around it; empty lists stay on one line. A value nested one level deeper is printed with the same text but for four more spaces after each line break. Joining the lines, by looking at the text only, gives the output of {:?}, also for errors.", "quantifier": "all values of every serialisable type whose texts are UTF-8, all listed articles, rows of the table of contents and errors, all levels, all tables of printable characters without control characters", "why_tests_cant": "The nesting of values is unbounded and their texts are arbitrary; a text that contained a line break as itself would break the layout.", "anchors": ["src/*.rs: derive Debug"]}
