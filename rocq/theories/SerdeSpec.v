(** Specification of the documents that stand for a law, and for a value of each serialisable type.

    Independent of [Serde.v] except for the type of documents: the declarations of the types are
    a table of data, copied from /repo/src field by field, and one generic function gives the
    normal form of a document with respect to a declared type. *)
From Coq Require Import String List NArith Bool Permutation.
From Verif Require Import Ast Serde.
Import ListNotations.
Open Scope string_scope.
Open Scope list_scope.

(** ** Declarations *)
Inductive sty :=
| TStr | TBool | TNum
| TOpt (t : sty)
| TVec (t : sty)
| TRef (n : string).

(** A struct has fields; each variant of an enum has no datum or one. *)
Inductive decl :=
| DStruct (fields : list (string * sty))
| DEnum (variants : list (string * option sty)).

(** Every type of /repo/src with [derive(Serialize, Deserialize)]: its name, its fields or variants in the
    order of the declaration. *)
Definition declarations : list (string * decl) := [
   (* /repo/src/appdx.rs 16-22 *)
   ("AppdxTable", DStruct [
     ("title", TOpt (TRef "TextWithWritingMode")); ("related_article_num", TOpt (TRef "Text"));
     ("children", TVec (TRef "AppdxTableContents")); ("remarks", TOpt (TRef "Remarks"));
     ("num", TOpt TStr)]);
   (* /repo/src/appdx.rs 99-102 *)
   ("AppdxTableContents", DEnum [
     ("TableStruct", Some (TRef "TableStruct")); ("Item", Some (TRef "Item"))]);
   (* /repo/src/appdx.rs 105-111 *)
   ("AppdxNote", DStruct [
     ("title", TOpt (TRef "TextWithWritingMode")); ("related_article_num", TOpt (TRef "Text"));
     ("children", TVec (TRef "AppdxNoteContents")); ("remarks", TOpt (TRef "Remarks"));
     ("num", TOpt TStr)]);
   (* /repo/src/appdx.rs 193-197 *)
   ("AppdxNoteContents", DEnum [
     ("NoteStruct", Some (TRef "NoteStruct")); ("FigStruct", Some (TRef "FigStruct"));
     ("TableStruct", Some (TRef "TableStruct"))]);
   (* /repo/src/appdx.rs 200-206 *)
   ("AppdxStyle", DStruct [
     ("title", TOpt (TRef "TextWithWritingMode")); ("related_article_num", TOpt (TRef "Text"));
     ("children", TVec (TRef "StyleStruct")); ("remarks", TOpt (TRef "Remarks"));
     ("num", TOpt TStr)]);
   (* /repo/src/appdx.rs 276-282 *)
   ("AppdxFormat", DStruct [
     ("title", TOpt (TRef "TextWithWritingMode")); ("related_article_num", TOpt (TRef "Text"));
     ("children", TVec (TRef "FormatStruct")); ("remarks", TOpt (TRef "Remarks"));
     ("num", TOpt TStr)]);
   (* /repo/src/appdx.rs 351-356 *)
   ("Appdx", DStruct [
     ("arith_formula_num", TOpt (TRef "Text")); ("related_article_num", TOpt (TRef "Text"));
     ("arith_formula", TVec (TRef "ArithFormula")); ("remarks", TOpt (TRef "Remarks"))]);
   (* /repo/src/appdx.rs 418-423 *)
   ("AppdxFig", DStruct [
     ("title", TOpt (TRef "TextWithWritingMode")); ("related_article_num", TOpt (TRef "Text"));
     ("children", TVec (TRef "AppdxFigContents")); ("num", TOpt TStr)]);
   (* /repo/src/appdx.rs 490-493 *)
   ("AppdxFigContents", DEnum [
     ("FigStruct", Some (TRef "FigStruct")); ("TableStruct", Some (TRef "TableStruct"))]);
   (* /repo/src/article.rs 16-22 *)
   ("Part", DStruct [
     ("part_title", TRef "Text"); ("children", TVec (TRef "PartContents"));
     ("num", TRef "ArticleNumber"); ("delete", TBool); ("hide", TBool)]);
   (* /repo/src/article.rs 127-130 *)
   ("PartContents", DEnum [
     ("Article", Some (TRef "Article")); ("Chapter", Some (TRef "Chapter"))]);
   (* /repo/src/article.rs 134-140 *)
   ("Chapter", DStruct [
     ("chapter_title", TRef "Text"); ("children", TVec (TRef "ChapterContents"));
     ("num", TRef "ArticleNumber"); ("delete", TBool); ("hide", TBool)]);
   (* /repo/src/article.rs 245-248 *)
   ("ChapterContents", DEnum [
     ("Article", Some (TRef "Article")); ("Section", Some (TRef "Section"))]);
   (* /repo/src/article.rs 252-258 *)
   ("Section", DStruct [
     ("section_title", TRef "Text"); ("children", TVec (TRef "SectionContents"));
     ("num", TRef "ArticleNumber"); ("delete", TBool); ("hide", TBool)]);
   (* /repo/src/article.rs 370-374 *)
   ("SectionContents", DEnum [
     ("Article", Some (TRef "Article")); ("Subsection", Some (TRef "Subsection"));
     ("Division", Some (TRef "Division"))]);
   (* /repo/src/article.rs 378-384 *)
   ("Subsection", DStruct [
     ("subsection_title", TRef "Text"); ("children", TVec (TRef "SubsectionContents"));
     ("num", TRef "ArticleNumber"); ("delete", TBool); ("hide", TBool)]);
   (* /repo/src/article.rs 491-494 *)
   ("SubsectionContents", DEnum [
     ("Article", Some (TRef "Article")); ("Division", Some (TRef "Division"))]);
   (* /repo/src/article.rs 498-504 *)
   ("Division", DStruct [
     ("division_title", TRef "Text"); ("children", TVec (TRef "Article"));
     ("num", TRef "ArticleNumber"); ("delete", TBool); ("hide", TBool)]);
   (* /repo/src/article.rs 601-609 *)
   ("Article", DStruct [
     ("caption", TOpt (TRef "Caption")); ("title", TRef "Text");
     ("paragraph", TVec (TRef "Paragraph")); ("suppl_note", TOpt (TRef "Text"));
     ("num", TRef "ArticleNumber"); ("delete", TBool); ("hide", TBool)]);
   (* /repo/src/article_number.rs 12-19 *)
   ("ArticleNumber", DStruct [
     ("base_number", TNum); ("eda_numbers", TVec TNum); ("range_end_numbers", TVec TNum)]);
   (* /repo/src/article_number.rs 320-329 *)
   ("ItemNumber", DStruct [
     ("str", TStr); ("base_number", TNum); ("eda_numbers", TVec TNum);
     ("range_end_numbers", TVec TNum); ("pattern", TRef "ItemPattern")]);
   (* /repo/src/article_number.rs 333-366 *)
   ("ItemPattern", DEnum [
     ("NoParenKansuji", None); ("NoParenIrohaKatakana", None); ("NoParenIrohaHiragana", None);
     ("NoParenZenkakuNum", None); ("NoParenZenkakuRomanUpper", None);
     ("NoParenZenkakuRomanLower", None); ("NoParenZenkakuUpper", None);
     ("NoParenZenkakuLower", None); ("ParenKansuji", None); ("ParenIrohaKatakana", None);
     ("ParenIrohaHiragana", None); ("ParenZenkakuNum", None); ("ParenZenkakuRomanUpper", None);
     ("ParenZenkakuRomanLower", None); ("ParenZenkakuUpper", None); ("ParenZenkakuLower", None)]);
   (* /repo/src/class.rs 16-21 *)
   ("Class", DStruct [
     ("class_title", TOpt (TRef "Text")); ("class_sentence", TRef "SentenceOrColumnOrTable");
     ("children", TVec (TRef "Item")); ("num", TStr)]);
   (* /repo/src/class.rs 86-90 *)
   ("SentenceOrColumnOrTable", DEnum [
     ("Sentence", Some (TVec (TRef "Sentence"))); ("Column", Some (TVec (TRef "Column")));
     ("Table", Some (TRef "Table"))]);
   (* /repo/src/class.rs 155-158 *)
   ("Caption", DStruct [
     ("text", TRef "Text"); ("common_caption", TOpt TBool)]);
   (* /repo/src/class.rs 190-195 *)
   ("Column", DStruct [
     ("sentence", TVec (TRef "Sentence")); ("num", TOpt TNum); ("line_break", TBool);
     ("align", TOpt (TRef "Align"))]);
   (* /repo/src/class.rs 241-246 *)
   ("Align", DEnum [
     ("Left", None); ("Center", None); ("Right", None); ("Justify", None)]);
   (* /repo/src/contents.rs 23-25 *)
   ("Contents", DStruct [
     ("contents", TVec (TRef "ContentsElement"))]);
   (* /repo/src/contents.rs 212-245 *)
   ("ContentsElement", DEnum [
     ("Table", Some (TRef "Table")); ("TableStruct", Some (TRef "TableStruct"));
     ("Fig", Some (TRef "Fig")); ("FigStruct", Some (TRef "FigStruct"));
     ("QuoteStruct", Some (TRef "QuoteStruct")); ("NoteStruct", Some (TRef "NoteStruct"));
     ("StyleStruct", Some (TRef "StyleStruct")); ("AppdxTable", Some (TRef "AppdxTable"));
     ("Ruby", Some (TRef "Ruby")); ("Line", Some (TRef "Line")); ("Sup", Some (TRef "Sup"));
     ("Sub", Some (TRef "Sub")); ("String", Some TStr); ("Paragraph", Some (TRef "Paragraph"));
     ("Item", Some (TRef "Item")); ("Subitem1", Some (TRef "Subitem1"));
     ("Subitem2", Some (TRef "Subitem2")); ("Subitem3", Some (TRef "Subitem3"));
     ("Subitem4", Some (TRef "Subitem4")); ("Subitem5", Some (TRef "Subitem5"));
     ("Subitem6", Some (TRef "Subitem6")); ("Subitem7", Some (TRef "Subitem7"));
     ("Subitem8", Some (TRef "Subitem8")); ("Subitem9", Some (TRef "Subitem9"));
     ("Subitem10", Some (TRef "Subitem10")); ("List", Some (TRef "List"));
     ("Sentence", Some (TRef "Sentence")); ("ArithFormula", Some (TRef "ArithFormula"));
     ("Remarks", Some (TRef "Remarks")); ("TOC", Some (TRef "TOC"));
     ("TOCSection", Some (TRef "TOCSection")); ("TableRow", Some (TRef "TableRow"))]);
   (* /repo/src/contents.rs 248-250 *)
   ("Style", DStruct [
     ("contentes", TRef "Contents")]);
   (* /repo/src/contents.rs 265-267 *)
   ("Note", DStruct [
     ("contentes", TRef "Contents")]);
   (* /repo/src/contents.rs 283-285 *)
   ("Format", DStruct [
     ("contentes", TRef "Contents")]);
   (* /repo/src/contents.rs 301-304 *)
   ("ArithFormula", DStruct [
     ("num", TOpt TNum); ("contentes", TRef "Contents")]);
   (* /repo/src/fig.rs 10-12 *)
   ("Fig", DStruct [
     ("src", TStr)]);
   (* /repo/src/law.rs 26-45 *)
   ("Law", DStruct [
     ("era", TRef "Era"); ("year", TNum); ("num", TOpt (TRef "ArticleNumber"));
     ("promulgate_month", TOpt TNum); ("promulgate_day", TOpt TNum);
     ("law_type", TRef "LawType"); ("lang", TRef "Lang"); ("law_num", TStr);
     ("law_body", TRef "LawBody")]);
   (* /repo/src/law.rs 264-275 *)
   ("Era", DEnum [
     ("Meiji", None); ("Taisho", None); ("Showa", None); ("Heisei", None); ("Reiwa", None)]);
   (* /repo/src/law.rs 279-294 *)
   ("LawType", DEnum [
     ("Constitution", None); ("Act", None); ("CabinetOrder", None); ("ImperialOrder", None);
     ("MinisterialOrdinance", None); ("Rule", None); ("Misc", None)]);
   (* /repo/src/law.rs 298-301 *)
   ("Lang", DEnum [
     ("Ja", None); ("En", None)]);
   (* /repo/src/law.rs 305-332 *)
   ("LawBody", DStruct [
     ("law_title", TOpt (TRef "LawTitle")); ("enact_statement", TVec (TRef "Text"));
     ("subject", TOpt TStr); ("toc", TOpt (TRef "TOC")); ("preamble", TOpt (TRef "Preamble"));
     ("main_provision", TRef "MainProvision"); ("suppl_provision", TVec (TRef "SupplProvision"));
     ("appdx_table", TVec (TRef "AppdxTable")); ("appdx_note", TVec (TRef "AppdxNote"));
     ("appdx_style", TVec (TRef "AppdxStyle")); ("appdx", TVec (TRef "Appdx"));
     ("appdx_fig", TVec (TRef "AppdxFig")); ("appdx_format", TVec (TRef "AppdxFormat"))]);
   (* /repo/src/law.rs 476-485 *)
   ("LawTitle", DStruct [
     ("kana", TOpt TStr); ("abbrev", TOpt TStr); ("abbrev_kana", TOpt TStr);
     ("text", TRef "Text")]);
   (* /repo/src/law.rs 525-527 *)
   ("Preamble", DStruct [
     ("children", TVec (TRef "Paragraph"))]);
   (* /repo/src/law.rs 560-564 *)
   ("MainProvision", DStruct [
     ("children", TVec (TRef "MainProvisionContents")); ("extract", TOpt TBool)]);
   (* /repo/src/law.rs 628-639 *)
   ("MainProvisionContents", DEnum [
     ("Part", Some (TRef "Part")); ("Chapter", Some (TRef "Chapter"));
     ("Section", Some (TRef "Section")); ("Article", Some (TRef "Article"));
     ("Paragraph", Some (TRef "Paragraph"))]);
   (* /repo/src/law.rs 643-646 *)
   ("AmendProvision", DStruct [
     ("sentence", TOpt (TRef "Sentence")); ("new_provision", TVec (TRef "NewProvision"))]);
   (* /repo/src/law.rs 971-1020 *)
   ("NewProvision", DEnum [
     ("LawTitle", Some (TRef "LawTitle")); ("Preamble", Some (TRef "Preamble"));
     ("TOC", Some (TRef "TOC")); ("Part", Some (TRef "Part")); ("PartTitle", Some (TRef "Text"));
     ("Chapter", Some (TRef "Chapter")); ("ChapterTitle", Some (TRef "Text"));
     ("Section", Some (TRef "Section")); ("SectionTitle", Some (TRef "Text"));
     ("Subsection", Some (TRef "Subsection")); ("SubsectionTitle", Some (TRef "Text"));
     ("Division", Some (TRef "Division")); ("DivisionTitle", Some (TRef "Text"));
     ("Article", Some (TRef "Article")); ("SupplNote", Some (TRef "Text"));
     ("Paragraph", Some (TRef "Paragraph")); ("Item", Some (TRef "Item"));
     ("Subitem1", Some (TRef "Subitem1")); ("Subitem2", Some (TRef "Subitem2"));
     ("Subitem3", Some (TRef "Subitem3")); ("Subitem4", Some (TRef "Subitem4"));
     ("Subitem5", Some (TRef "Subitem5")); ("Subitem6", Some (TRef "Subitem6"));
     ("Subitem7", Some (TRef "Subitem7")); ("Subitem8", Some (TRef "Subitem8"));
     ("Subitem9", Some (TRef "Subitem9")); ("Subitem10", Some (TRef "Subitem10"));
     ("List", Some (TRef "List")); ("Sentence", Some (TRef "Sentence"));
     ("AmendProvision", Some (TRef "AmendProvision")); ("AppdxTable", Some (TRef "AppdxTable"));
     ("AppdxNote", Some (TRef "AppdxNote")); ("AppdxStyle", Some (TRef "AppdxStyle"));
     ("Appdx", Some (TRef "Appdx")); ("AppdxFig", Some (TRef "AppdxFig"));
     ("AppdxFormat", Some (TRef "AppdxFormat"));
     ("SupplProvisionAppdxStyle", Some (TRef "SupplProvisionAppdxStyle"));
     ("SupplProvisionAppdxTable", Some (TRef "SupplProvisionAppdxTable"));
     ("SupplProvisionAppdx", Some (TRef "SupplProvisionAppdx"));
     ("TableStruct", Some (TRef "TableStruct")); ("TableRow", Some (TRef "TableRow"));
     ("TableColumn", Some (TRef "TableColumn")); ("FigStruct", Some (TRef "FigStruct"));
     ("NoteStruct", Some (TRef "NoteStruct")); ("StyleStruct", Some (TRef "StyleStruct"));
     ("FormatStruct", Some (TRef "FormatStruct")); ("Remarks", Some (TRef "Remarks"));
     ("LawBody", Some (TRef "LawBody"))]);
   (* /repo/src/line.rs 13-16 *)
   ("Line", DStruct [
     ("contents", TVec (TRef "LineContents")); ("style", TRef "LineStyle")]);
   (* /repo/src/line.rs 84-91 *)
   ("LineContents", DEnum [
     ("QuoteStruct", Some (TRef "QuoteStruct")); ("ArithFormula", Some (TRef "ArithFormula"));
     ("Ruby", Some (TRef "Ruby")); ("Sup", Some (TRef "Sup")); ("Sub", Some (TRef "Sub"));
     ("String", Some TStr)]);
   (* /repo/src/line.rs 95-100 *)
   ("LineStyle", DEnum [
     ("Dotted", None); ("Double", None); ("Solid", None); ("None", None)]);
   (* /repo/src/list.rs 14-17 *)
   ("List", DStruct [
     ("sentence", TVec (TRef "ListSentence")); ("children", TVec (TRef "Sublist1"))]);
   (* /repo/src/list.rs 91-94 *)
   ("ListSentence", DEnum [
     ("Sentence", Some (TRef "Sentence")); ("Column", Some (TRef "Column"))]);
   (* /repo/src/list.rs 97-100 *)
   ("Sublist1", DStruct [
     ("sentence", TVec (TRef "ListSentence")); ("children", TVec (TRef "Sublist2"))]);
   (* /repo/src/list.rs 174-177 *)
   ("Sublist2", DStruct [
     ("sentence", TVec (TRef "ListSentence")); ("children", TVec (TRef "Sublist3"))]);
   (* /repo/src/list.rs 251-253 *)
   ("Sublist3", DStruct [
     ("sentence", TVec (TRef "ListSentence"))]);
   (* /repo/src/paragraph.rs 18-30 *)
   ("Paragraph", DStruct [
     ("caption", TOpt (TRef "Caption")); ("paragraph_num", TRef "Text");
     ("amend_provision", TVec (TRef "AmendProvision")); ("class", TVec (TRef "Class"));
     ("sentence", TVec (TRef "Sentence")); ("struct_list", TVec (TRef "Struct"));
     ("children", TVec (TRef "Item")); ("num", TRef "ArticleNumber"); ("old_style", TBool);
     ("old_num", TBool); ("hide", TBool)]);
   (* /repo/src/paragraph.rs 164-172 *)
   ("Item", DStruct [
     ("title", TOpt (TRef "Text")); ("sentence", TRef "SentenceOrColumnOrTable");
     ("children", TVec (TRef "Subitem1")); ("struct_list", TVec (TRef "Struct"));
     ("num", TOpt (TRef "ArticleNumber")); ("delete", TBool); ("hide", TBool)]);
   (* /repo/src/paragraph.rs 308-316 *)
   ("Subitem1", DStruct [
     ("title", TOpt (TRef "Text")); ("sentence", TRef "SentenceOrColumnOrTable");
     ("children", TVec (TRef "Subitem2")); ("struct_list", TVec (TRef "Struct"));
     ("num", TOpt (TRef "ArticleNumber")); ("delete", TBool); ("hide", TBool)]);
   (* /repo/src/paragraph.rs 452-460 *)
   ("Subitem2", DStruct [
     ("title", TOpt (TRef "Text")); ("sentence", TRef "SentenceOrColumnOrTable");
     ("children", TVec (TRef "Subitem3")); ("struct_list", TVec (TRef "Struct"));
     ("num", TOpt (TRef "ArticleNumber")); ("delete", TBool); ("hide", TBool)]);
   (* /repo/src/paragraph.rs 596-604 *)
   ("Subitem3", DStruct [
     ("title", TOpt (TRef "Text")); ("sentence", TRef "SentenceOrColumnOrTable");
     ("children", TVec (TRef "Subitem4")); ("struct_list", TVec (TRef "Struct"));
     ("num", TOpt (TRef "ArticleNumber")); ("delete", TBool); ("hide", TBool)]);
   (* /repo/src/paragraph.rs 740-748 *)
   ("Subitem4", DStruct [
     ("title", TOpt (TRef "Text")); ("sentence", TRef "SentenceOrColumnOrTable");
     ("children", TVec (TRef "Subitem5")); ("struct_list", TVec (TRef "Struct"));
     ("num", TOpt (TRef "ArticleNumber")); ("delete", TBool); ("hide", TBool)]);
   (* /repo/src/paragraph.rs 884-892 *)
   ("Subitem5", DStruct [
     ("title", TOpt (TRef "Text")); ("sentence", TRef "SentenceOrColumnOrTable");
     ("children", TVec (TRef "Subitem6")); ("struct_list", TVec (TRef "Struct"));
     ("num", TOpt (TRef "ArticleNumber")); ("delete", TBool); ("hide", TBool)]);
   (* /repo/src/paragraph.rs 1028-1036 *)
   ("Subitem6", DStruct [
     ("title", TOpt (TRef "Text")); ("sentence", TRef "SentenceOrColumnOrTable");
     ("children", TVec (TRef "Subitem7")); ("struct_list", TVec (TRef "Struct"));
     ("num", TOpt (TRef "ArticleNumber")); ("delete", TBool); ("hide", TBool)]);
   (* /repo/src/paragraph.rs 1172-1180 *)
   ("Subitem7", DStruct [
     ("title", TOpt (TRef "Text")); ("sentence", TRef "SentenceOrColumnOrTable");
     ("children", TVec (TRef "Subitem8")); ("struct_list", TVec (TRef "Struct"));
     ("num", TOpt (TRef "ArticleNumber")); ("delete", TBool); ("hide", TBool)]);
   (* /repo/src/paragraph.rs 1316-1324 *)
   ("Subitem8", DStruct [
     ("title", TOpt (TRef "Text")); ("sentence", TRef "SentenceOrColumnOrTable");
     ("children", TVec (TRef "Subitem9")); ("struct_list", TVec (TRef "Struct"));
     ("num", TOpt (TRef "ArticleNumber")); ("delete", TBool); ("hide", TBool)]);
   (* /repo/src/paragraph.rs 1460-1468 *)
   ("Subitem9", DStruct [
     ("title", TOpt (TRef "Text")); ("sentence", TRef "SentenceOrColumnOrTable");
     ("children", TVec (TRef "Subitem10")); ("struct_list", TVec (TRef "Struct"));
     ("num", TOpt (TRef "ArticleNumber")); ("delete", TBool); ("hide", TBool)]);
   (* /repo/src/paragraph.rs 1604-1611 *)
   ("Subitem10", DStruct [
     ("title", TOpt (TRef "Text")); ("sentence", TRef "SentenceOrColumnOrTable");
     ("struct_list", TVec (TRef "Struct")); ("num", TOpt (TRef "ArticleNumber"));
     ("delete", TBool); ("hide", TBool)]);
   (* /repo/src/remarks.rs 14-17 *)
   ("Remarks", DStruct [
     ("label", TRef "RemarksLabel"); ("children", TVec (TRef "RemarksContents"))]);
   (* /repo/src/remarks.rs 74-77 *)
   ("RemarksLabel", DStruct [
     ("text", TRef "Text"); ("line_break", TBool)]);
   (* /repo/src/remarks.rs 104-107 *)
   ("RemarksContents", DEnum [
     ("Item", Some (TRef "Item")); ("Sentence", Some (TRef "Sentence"))]);
   (* /repo/src/sentence.rs 13-19 *)
   ("Sentence", DStruct [
     ("contents", TVec (TRef "SentenceElement")); ("num", TOpt TNum);
     ("function", TOpt (TRef "SentenceFunction")); ("indent", TOpt (TRef "SentenceIndent"));
     ("writing_mode", TRef "WritingMode")]);
   (* /repo/src/sentence.rs 200-208 *)
   ("SentenceElement", DEnum [
     ("Line", Some (TRef "Line")); ("QuoteStruct", Some (TRef "QuoteStruct"));
     ("ArithFormula", Some (TRef "ArithFormula")); ("Ruby", Some (TRef "Ruby"));
     ("Sup", Some (TRef "Sup")); ("Sub", Some (TRef "Sub")); ("String", Some TStr)]);
   (* /repo/src/sentence.rs 211-214 *)
   ("SentenceFunction", DEnum [
     ("Main", None); ("Proviso", None)]);
   (* /repo/src/sentence.rs 217-230 *)
   ("SentenceIndent", DEnum [
     ("Paragraph", None); ("Item", None); ("Subitem1", None); ("Subitem2", None);
     ("Subitem3", None); ("Subitem4", None); ("Subitem5", None); ("Subitem6", None);
     ("Subitem7", None); ("Subitem8", None); ("Subitem9", None); ("Subitem10", None)]);
   (* /repo/src/structs.rs 16-21 *)
   ("Struct", DEnum [
     ("TableStruct", Some (TRef "TableStruct")); ("FigStruct", Some (TRef "FigStruct"));
     ("StyleStruct", Some (TRef "StyleStruct")); ("List", Some (TRef "List"))]);
   (* /repo/src/structs.rs 48-50 *)
   ("QuoteStruct", DStruct [
     ("contentes", TRef "Contents")]);
   (* /repo/src/structs.rs 65-70 *)
   ("NoteStruct", DStruct [
     ("title", TOpt (TRef "Text")); ("title_remarks", TVec (TRef "Remarks"));
     ("note", TRef "Note"); ("note_remarks", TVec (TRef "Remarks"))]);
   (* /repo/src/structs.rs 141-146 *)
   ("StyleStruct", DStruct [
     ("title", TOpt (TRef "Text")); ("title_remarks", TVec (TRef "Remarks"));
     ("style", TRef "Style"); ("style_remarks", TVec (TRef "Remarks"))]);
   (* /repo/src/structs.rs 217-222 *)
   ("FormatStruct", DStruct [
     ("title", TOpt (TRef "Text")); ("title_remarks", TVec (TRef "Remarks"));
     ("format", TRef "Format"); ("format_remarks", TVec (TRef "Remarks"))]);
   (* /repo/src/structs.rs 293-298 *)
   ("FigStruct", DStruct [
     ("title", TOpt (TRef "Text")); ("title_remarks", TVec (TRef "Remarks"));
     ("fig", TRef "Fig"); ("fig_remarks", TVec (TRef "Remarks"))]);
   (* /repo/src/structs.rs 368-373 *)
   ("TableStruct", DStruct [
     ("title", TOpt (TRef "TextWithWritingMode")); ("title_remarks", TVec (TRef "Remarks"));
     ("table", TRef "Table"); ("table_remarks", TVec (TRef "Remarks"))]);
   (* /repo/src/suppl_provision.rs 17-23 *)
   ("SupplProvision", DStruct [
     ("label", TRef "Text"); ("children", TVec (TRef "SupplProvisionChildrenElement"));
     ("suppl_provision_type", TOpt (TRef "SupplProvisionType")); ("amend_law_num", TOpt TStr);
     ("extract", TOpt TBool)]);
   (* /repo/src/suppl_provision.rs 141-148 *)
   ("SupplProvisionChildrenElement", DEnum [
     ("Chapter", Some (TRef "Chapter")); ("Article", Some (TRef "Article"));
     ("Paragraph", Some (TRef "Paragraph"));
     ("SupplProvisionAppdxTable", Some (TRef "SupplProvisionAppdxTable"));
     ("SupplProvisionAppdxStyle", Some (TRef "SupplProvisionAppdxStyle"));
     ("SupplProvisionAppdx", Some (TRef "SupplProvisionAppdx"))]);
   (* /repo/src/suppl_provision.rs 151-154 *)
   ("SupplProvisionType", DEnum [
     ("New", None); ("Amend", None)]);
   (* /repo/src/suppl_provision.rs 157-162 *)
   ("SupplProvisionAppdxTable", DStruct [
     ("title", TRef "TextWithWritingMode"); ("related_article_num", TOpt (TRef "Text"));
     ("table_struct", TVec (TRef "TableStruct")); ("num", TOpt TStr)]);
   (* /repo/src/suppl_provision.rs 231-236 *)
   ("SupplProvisionAppdxStyle", DStruct [
     ("title", TRef "TextWithWritingMode"); ("related_article_num", TOpt (TRef "Text"));
     ("style_struct", TVec (TRef "StyleStruct")); ("num", TOpt TStr)]);
   (* /repo/src/suppl_provision.rs 305-310 *)
   ("SupplProvisionAppdx", DStruct [
     ("arith_formula_num", TOpt (TRef "Text")); ("related_article_num", TOpt (TRef "Text"));
     ("arith_formula", TVec (TRef "ArithFormula")); ("num", TOpt TStr)]);
   (* /repo/src/table.rs 18-22 *)
   ("Table", DStruct [
     ("table_header_row", TVec (TRef "TableHeaderRow")); ("table_row", TVec (TRef "TableRow"));
     ("writing_mode", TRef "WritingMode")]);
   (* /repo/src/table.rs 78-80 *)
   ("TableHeaderRow", DStruct [
     ("columns", TVec (TRef "Text"))]);
   (* /repo/src/table.rs 114-116 *)
   ("TableRow", DStruct [
     ("columns", TVec (TRef "TableColumn"))]);
   (* /repo/src/table.rs 150-160 *)
   ("TableColumn", DStruct [
     ("contents", TVec (TRef "TableColumnContents")); ("border_top", TRef "LineStyle");
     ("border_bottom", TRef "LineStyle"); ("border_left", TRef "LineStyle");
     ("border_right", TRef "LineStyle"); ("rowspan", TOpt TStr); ("colspan", TOpt TStr);
     ("align", TOpt (TRef "Align")); ("valign", TOpt (TRef "Position"))]);
   (* /repo/src/table.rs 349-373 *)
   ("TableColumnContents", DEnum [
     ("Part", Some (TRef "Part")); ("Chapter", Some (TRef "Chapter"));
     ("Section", Some (TRef "Section")); ("Subsection", Some (TRef "Subsection"));
     ("Division", Some (TRef "Division")); ("Article", Some (TRef "Article"));
     ("Paragraph", Some (TRef "Paragraph")); ("Item", Some (TRef "Item"));
     ("Subitem1", Some (TRef "Subitem1")); ("Subitem2", Some (TRef "Subitem2"));
     ("Subitem3", Some (TRef "Subitem3")); ("Subitem4", Some (TRef "Subitem4"));
     ("Subitem5", Some (TRef "Subitem5")); ("Subitem6", Some (TRef "Subitem6"));
     ("Subitem7", Some (TRef "Subitem7")); ("Subitem8", Some (TRef "Subitem8"));
     ("Subitem9", Some (TRef "Subitem9")); ("Subitem10", Some (TRef "Subitem10"));
     ("FigStruct", Some (TRef "FigStruct")); ("Sentence", Some (TRef "Sentence"));
     ("Remarks", Some (TRef "Remarks")); ("Column", Some (TRef "Column")); ("String", Some TStr)]);
   (* /repo/src/table.rs 376-380 *)
   ("Position", DEnum [
     ("Top", None); ("Middle", None); ("Bottom", None)]);
   (* /repo/src/table_of_contents.rs 14-25 *)
   ("TOC", DStruct [
     ("toc_label", TOpt (TRef "Text")); ("toc_preamble_label", TOpt (TRef "Text"));
     ("toc_main_contents", TVec (TRef "TOCMainContents"));
     ("toc_suppl_provision", TOpt (TRef "TOCSupplProvision"));
     ("toc_appdx_table_label", TVec (TRef "Text"))]);
   (* /repo/src/table_of_contents.rs 116-125 *)
   ("TOCMainContents", DEnum [
     ("TOCPart", Some (TRef "TOCPart")); ("TOCChapter", Some (TRef "TOCChapter"));
     ("TOCSection", Some (TRef "TOCSection")); ("TOCArticle", Some (TRef "TOCArticle"))]);
   (* /repo/src/table_of_contents.rs 129-140 *)
   ("TOCPart", DStruct [
     ("part_title", TRef "Text"); ("article_range", TOpt (TRef "Text"));
     ("num", TRef "ArticleNumber"); ("delete", TBool); ("children", TVec (TRef "TOCChapter"))]);
   (* /repo/src/table_of_contents.rs 205-216 *)
   ("TOCChapter", DStruct [
     ("chapter_title", TRef "Text"); ("article_range", TOpt (TRef "Text"));
     ("num", TRef "ArticleNumber"); ("delete", TBool); ("children", TVec (TRef "TOCSection"))]);
   (* /repo/src/table_of_contents.rs 281-292 *)
   ("TOCSection", DStruct [
     ("section_title", TRef "Text"); ("article_range", TOpt (TRef "Text"));
     ("num", TRef "ArticleNumber"); ("delete", TBool);
     ("children", TVec (TRef "TOCSectionContents"))]);
   (* /repo/src/table_of_contents.rs 366-371 *)
   ("TOCSectionContents", DEnum [
     ("TOCSubsection", Some (TRef "TOCSubsection")); ("TOCDivision", Some (TRef "TOCDivision"))]);
   (* /repo/src/table_of_contents.rs 375-386 *)
   ("TOCSubsection", DStruct [
     ("subsection_title", TRef "Text"); ("article_range", TOpt (TRef "Text"));
     ("num", TRef "ArticleNumber"); ("delete", TBool); ("children", TVec (TRef "TOCDivision"))]);
   (* /repo/src/table_of_contents.rs 453-462 *)
   ("TOCDivision", DStruct [
     ("division_title", TRef "Text"); ("article_range", TOpt (TRef "Text"));
     ("num", TRef "ArticleNumber"); ("delete", TBool)]);
   (* /repo/src/table_of_contents.rs 520-529 *)
   ("TOCArticle", DStruct [
     ("article_title", TRef "Text"); ("article_caption", TRef "Caption");
     ("num", TRef "ArticleNumber"); ("delete", TBool)]);
   (* /repo/src/table_of_contents.rs 592-599 *)
   ("TOCSupplProvision", DStruct [
     ("suppl_provision_label", TRef "Text"); ("article_range", TOpt (TRef "Text"));
     ("children", TVec (TRef "TOCSupplProvisionContents"))]);
   (* /repo/src/table_of_contents.rs 668-673 *)
   ("TOCSupplProvisionContents", DEnum [
     ("TOCArticle", Some (TRef "TOCArticle")); ("TOCChapter", Some (TRef "TOCChapter"))]);
   (* /repo/src/text.rs 13-15 *)
   ("Text", DStruct [
     ("contents", TVec (TRef "TextElement"))]);
   (* /repo/src/text.rs 179-182 *)
   ("WritingMode", DEnum [
     ("Vertical", None); ("Horizontal", None)]);
   (* /repo/src/text.rs 186-189 *)
   ("TextWithWritingMode", DStruct [
     ("contents", TVec (TRef "TextElement")); ("writing_mode", TRef "WritingMode")]);
   (* /repo/src/text.rs 251-257 *)
   ("TextElement", DEnum [
     ("Ruby", Some (TRef "Ruby")); ("Line", Some (TRef "Line")); ("Sup", Some (TRef "Sup"));
     ("Sub", Some (TRef "Sub")); ("Text", Some TStr)]);
   (* /repo/src/text.rs 261-266 *)
   ("Ruby", DStruct [
     ("text", TRef "Text"); ("ruby", TStr)]);
   (* /repo/src/text.rs 326-328 *)
   ("Sup", DStruct [
     ("text", TStr)]);
   (* /repo/src/text.rs 361-363 *)
   ("Sub", DStruct [
     ("text", TStr)]);
   (* /repo/src/utils.rs 330-336 *)
   ("TextIndex", DStruct [
     ("paragraph", TRef "ArticleNumber"); ("items", TVec (TOpt (TRef "ArticleNumber")))])
].

Fixpoint find_decl (n : string) (l : list (string * decl)) : option decl :=
  match l with
  | [] => None
  | (m, d) :: r => if String.eqb n m then Some d else find_decl n r
  end.

(** ** Normal forms *)

(** The values of the entries with this key. *)
Fixpoint with_key (n : string) (l : list (string * json)) : list json :=
  match l with
  | [] => []
  | (m, v) :: r => if String.eqb m n then v :: with_key n r else with_key n r
  end.

(** Every element has a normal form. *)
Fixpoint each (g : json -> option json) (l : list json) : option (list json) :=
  match l with
  | [] => Some []
  | j :: r =>
      match g j, each g r with Some c, Some cs => Some (c :: cs) | _, _ => None end
  end.

Section Normal.
Context (g : sty -> json -> option json).

(** The normal form of a field: exactly one entry, or none if the type is optional. *)
Definition field_form (t : sty) (vs : list json) : option json :=
  match vs with
  | [v] => g t v
  | [] => match t with TOpt _ => Some JNull | _ => None end
  | _ => None
  end.

(** All fields, in the order of the declaration, from entries in any order. *)
Fixpoint fields_form (fs : list (string * sty)) (l : list (string * json)) :
  option (list (string * json)) :=
  match fs with
  | [] => Some []
  | (n, t) :: r =>
      match field_form t (with_key n l), fields_form r l with
      | Some c, Some cs => Some ((n, c) :: cs)
      | _, _ => None
      end
  end.

(** All fields from an array: as many values as fields. *)
Fixpoint seq_form (fs : list (string * sty)) (l : list json) : option (list (string * json)) :=
  match fs, l with
  | [], [] => Some []
  | (n, t) :: r, v :: vs =>
      match g t v, seq_form r vs with
      | Some c, Some cs => Some ((n, c) :: cs)
      | _, _ => None
      end
  | _, _ => None
  end.

Fixpoint find_variant (n : string) (vs : list (string * option sty)) : option (option sty) :=
  match vs with
  | [] => None
  | (m, t) :: r => if String.eqb n m then Some t else find_variant n r
  end.

Definition decl_form (d : decl) (j : json) : option json :=
  match d, j with
  | DStruct fs, JObj l => option_map JObj (fields_form fs l)
  | DStruct fs, JArr l => option_map JObj (seq_form fs l)
  | DEnum vs, JStr v =>
      match find_variant v vs with Some None => Some (JStr v) | _ => None end
  | DEnum vs, JObj [(v, x)] =>
      match find_variant v vs with
      | Some None => match x with JNull => Some (JStr v) | _ => None end
      | Some (Some t) => option_map (fun c => JObj [(v, c)]) (g t x)
      | None => None
      end
  | _, _ => None
  end.
End Normal.

(** With names resolved at most [n] times on the way down. *)
Fixpoint form_n (n : nat) : sty -> json -> option json :=
  fix go (t : sty) (j : json) {struct t} : option json :=
    match t with
    | TStr => match j with JStr _ => Some j | _ => None end
    | TBool => match j with JBool _ => Some j | _ => None end
    | TNum => match j with JNum _ => Some j | _ => None end
    | TOpt u => match j with JNull => Some JNull | _ => go u j end
    | TVec u => match j with JArr l => option_map JArr (each (go u) l) | _ => None end
    | TRef r =>
        match n, find_decl r declarations with
        | S m, Some d => decl_form (form_n m) d j
        | _, _ => None
        end
    end.

(** The normal form of a document as a value of a type; [None] if it does not stand for one.  Each name
    leads into a part of the document, so its nesting bounds their number ([form_unfold]). *)
Definition form (t : sty) (j : json) : option json := form_n (depth j) t j.

(** ** Documents that only differ in what does not matter *)

(** The entries of objects are in another order, at any depth. *)
Inductive reordered : json -> json -> Prop :=
| re_same j : reordered j j
| re_arr l l' : Forall2 reordered l l' -> reordered (JArr l) (JArr l')
| re_obj l l' m :
    Forall2 (fun a b => fst a = fst b /\ reordered (snd a) (snd b)) l l' ->
    Permutation l' m -> reordered (JObj l) (JObj m).

(** Every name that some declaration uses as a field or as a variant. *)
Definition declared (n : string) : bool :=
  existsb (fun d => match snd d with
                    | DStruct fs => existsb (fun f => String.eqb n (fst f)) fs
                    | DEnum vs => existsb (fun v => String.eqb n (fst v)) vs
                    end) declarations.

(** The document without the entries whose key no declaration uses. *)
Fixpoint pruned (j : json) : json :=
  match j with
  | JArr l => JArr (map pruned l)
  | JObj l =>
      JObj (flat_map (fun e => if declared (fst e) then [(fst e, pruned (snd e))] else []) l)
  | _ => j
  end.

(** The document without the entries of objects whose value is null. *)
Definition is_null (j : json) : bool := match j with JNull => true | _ => false end.
Fixpoint sparse (j : json) : json :=
  match j with
  | JArr l => JArr (map sparse l)
  | JObj l =>
      JObj (flat_map (fun e => if is_null (snd e) then [] else [(fst e, sparse (snd e))]) l)
  | _ => j
  end.

(** ** The declared type behind each kind of [Ast] *)
Definition level_type (l : lvl) : string :=
  match l with
  | Item0 => "Item" | Sub1 => "Subitem1" | Sub2 => "Subitem2" | Sub3 => "Subitem3" | Sub4 => "Subitem4"
  | Sub5 => "Subitem5" | Sub6 => "Subitem6" | Sub7 => "Subitem7" | Sub8 => "Subitem8"
  | Sub9 => "Subitem9" | Sub10 => "Subitem10"
  end.
Definition type_name (k : kind) : string :=
  match k with
  | KVoid => ""
  | KRuby => "Ruby"
  | KLine => "Line"
  | KCont CQuote => "QuoteStruct"
  | KCont CArith => "Contents"
  | KCont CNote => "Note"
  | KCont CStyle => "Style"
  | KCont CFormat => "Format"
  | KSentence => "Sentence"
  | KColumn => "Column"
  | KTable => "Table"
  | KTableRow => "TableRow"
  | KTableColumn => "TableColumn"
  | KRemarks => "Remarks"
  | KCStruct SNote => "NoteStruct"
  | KCStruct SStyle => "StyleStruct"
  | KCStruct SFormat => "FormatStruct"
  | KFigStruct => "FigStruct"
  | KTableStruct => "TableStruct"
  | KList List0 => "List"
  | KList Sublist1 => "Sublist1"
  | KList Sublist2 => "Sublist2"
  | KList Sublist3 => "Sublist3"
  | KClass => "Class"
  | KItem l => level_type l
  | KParagraph => "Paragraph"
  | KArticle => "Article"
  | KPart => "Part"
  | KChapter => "Chapter"
  | KSection => "Section"
  | KSubsection => "Subsection"
  | KDivision => "Division"
  | KAmend => "AmendProvision"
  | KLawTitle => "LawTitle"
  | KPreamble => "Preamble"
  | KMain => "MainProvision"
  | KSuppl => "SupplProvision"
  | KSupplTable => "SupplProvisionAppdxTable"
  | KSupplStyle => "SupplProvisionAppdxStyle"
  | KSupplAppdx => "SupplProvisionAppdx"
  | KAppdxTable => "AppdxTable"
  | KAppdxNote => "AppdxNote"
  | KAppdxStyle => "AppdxStyle"
  | KAppdxFormat => "AppdxFormat"
  | KAppdx => "Appdx"
  | KAppdxFig => "AppdxFig"
  | KTOC => "TOC"
  | KTOCPart => "TOCPart"
  | KTOCChapter => "TOCChapter"
  | KTOCSection => "TOCSection"
  | KTOCSubsection => "TOCSubsection"
  | KTOCDivision => "TOCDivision"
  | KTOCArticle => "TOCArticle"
  | KTOCSuppl => "TOCSupplProvision"
  | KLawBody => "LawBody"
  end.
