# Design of the formal model

Project modelled: `japanese_law_xml_schema` (Rust, `/repo`, read only as text).
Technique: a function-by-function model in Gallina (Coq 8.16.1), property
theorems stated against small independent specifications, all under
`/verif/rocq/theories` (logical name `Verif`).

## 1. Architecture of the model

| layer | Rust files | Coq files |
|---|---|---|
| results, errors, strings, `usize` text | `result.rs`, std | `Base.v` |
| regular expressions (leftmost-first, anchored), their syntax | regex crate | `Regex.v`, `Pattern.v` |
| XML tree (xmltree `Element`) and attribute helpers | xmltree, `lib.rs` 161-213 | `Xml.v` |
| article numbers, `Num` strings | `article_number.rs` 12-89 | `NumStr.v` |
| Japanese number text, item labels, line splitting | `article_number.rs` 92-929 | `NumText.v` |
| syntax tree (all `pub struct`s) | every file | `Ast.v` |
| element -> structure (`Parser`) | every file | `XmlParse.v` |
| structure -> element (`ToXmlElement`) | every file | `XmlWrite.v` |
| listings, text flattening | `utils.rs`, `text.rs` 116-131 | `Utils.v` |
| XML text, files and writers | `lib.rs` 54-67, 112-158 | `Api.v` |
| plain-text parser | `parse_from_text.rs`, `lib.rs` 72-110 | `TextParse.v` |
| what reading plain text prints | `article_number.rs`, `parse_from_text.rs` | `Stdout.v` |
| messages of errors | `result.rs` 7-38 | `ErrorText.v` |
| `derive`d serialisation, comparison, hash, debug output | every file | `Serde.v`, `Derived.v`, `Debug.v`, `DebugLine.v` |
| implementations that nothing calls | see there | `Unused.v` |

### Results
`R A = Ok a | Err e | Panic`. `Err` carries the `Error` of `result.rs` with its payload.
`unwrap()` on `None`/`Err`, `unreachable!()`, `todo!()` are the explicit value `Panic`.
Code that discards errors (`if let Ok(x) = ...`) still propagates `Panic`.

### Strings
A Rust `String` in the XML layer is the Coq `string` of its UTF-8 bytes.
The number-text layer works on lists of code points (`list N`).
`usize` is `N`; numbers read from text are checked against 2^64.

### XML trees
`Element = name, attributes, children`; child nodes are elements, text, or "other"
(comments, CDATA, processing instructions). The attribute `HashMap` is an association list
with insert-replaces semantics; the code under model only uses `get` and `insert`, and a theorem
shows that the readers depend on the lookup function only.

### Syntax tree
All types of the law structure are mutually recursive (an amendment may quote a
whole law body).
Each Rust type `T` is a record `TF K` over a family `K : kind -> Type` of child
types, and the knot is tied by one indexed inductive family `Knot : kind -> Type`
(one constructor per kind). `mk`/`un` are mutually inverse.
`Item` and `Subitem1..10` are one record indexed by the level; the eleven
copies in `paragraph.rs` are textually identical up to the tag names (line ranges cited).

### Readers and writers
Every `parser` function is a definition over the readers of the child types (open
recursion). The knot is tied by iterating along the height of the tree, and the theorem
`parse_unfold` shows the fixpoint equation, so the iteration count is not observable.
Writers are a structural fixpoint.

## 2. Trusted base

* Coq's kernel (8.16.1), `coqc`/`vm_compute`.
* No axioms: see section 5 for the output of `Print Assumptions`.
* The transcription of the Rust code into Gallina, done by hand; each definition cites lines.
  `RepoTests.v` runs the unit tests of /repo (all ten of them) on the model with the results that their authors
  expect; of the Civil Code document it uses a cut in which every combination of parent, tag and attributes occurs. The
  whole document was also read, written and read again with the model, outside this project because of its size: the
  only difference are the nine numbers with a range, as C02 says.
* Third-party crates are *not* modelled. They occur as explicit parameters (section variables)
  with explicit hypotheses in the theorems that need them:
  - `kansuji` (kanji numerals), `roman` (Roman numerals), `koyomi` (calendar), `xmltree`/`xml-rs`
    (bytes <-> element tree).
  - `kansuji` and `roman` are the record `codec` of `NumText.v` (four functions, no laws). Theorems that need
    a law have the hypothesis `numeral cd n` or `roman_numeral cd n` for the numbers concerned; `CodecSample.v`
    has a concrete instance and shows that it satisfies them.
  - `regex`: `Regex.v` is a small backtracking engine which returns all matches in order of preference, the first
    of which is the result. The fixed expressions are transcribed as values of its syntax; `Pattern.v` has them as the
    strings of the source, with a reader for the syntax they use, and C102 proves that both have the same matches.
    `MatchSpec.v` states the leftmost-first, greedy rule as an order on derivations, and C101 proves that the engine
    reports the best one. That the crate follows this documented rule and this grammar
    (`PatternSpec.v`) is trusted.
* `Api.v`: `parse_xml`, `parse_xml_file`, `to_xml`, `write_file`, `WritableString` of lib.rs; `write_all` and
  `from_utf8` of the standard library as documented; crate xmltree as a pair of unknown functions; a file is its bytes.
* `Serde.v`: what `derive(Serialize, Deserialize)` generates for each of the 110 types that have it, on documents of
  a self-describing format (null, booleans, numbers, strings, arrays, objects). The macros of crate serde are modelled by
  their documented behaviour (none of the types has a `#[serde(..)]` attribute); this behaviour is trusted. The text
  of a document (JSON, ..) belongs to the crate of the format, which this repository does not choose.
* `Unused.v`: the two implementations that nothing calls, `Parser for Struct` and `ToXmlElement for RemarksLabel`.
* `Derived.v`: what `derive(PartialEq, Hash)` generates, from the documentation of the standard library: comparison field
  by field; the sequence of calls of the methods of `Hasher` (a hasher itself is not modelled). `derive(Clone)` gives
  an equal value and `derive(Eq)` no code; `derive(Default)` of `Toc` is in `Utils.v`.
* `Debug.v`: what `derive(Debug)` generates, once for all types over the table of declarations in `SerdeSpec.v`, on the
  document of a value; `debug_struct`, `debug_tuple` and `debug_list` of the standard library in both styles. Which
  characters are written as themselves is a parameter. `DebugLine.v` has it for the private enum of lines of plain text.
* `Stdout.v`: the four calls of `println!` that reading plain text runs through, as the list of lines printed beside the
  result; standard output takes every line, or fails after some number of them (`taking`), which is a panic.
* Not modelled: the source of crates xmltree and serde; the depth of the stack and the amount of memory,
  so a run that would overflow them in Rust is a run like any other here. (There are no doc tests.)

## 3. Properties and how they are treated

(One line for each; the exact theorem names are in `MANIFEST.json`.)

* C01-C05 `Num` strings: models of `num_str`, `from_num_str` on byte strings; proved by list induction on
  splitting/joining and a decimal codec lemma. C02 is an iff, C03 a two-sided grammar characterisation.
* C06, C07: decimal codec on code points; tables by case analysis on all 47 entries, plus "no other" direction.
* C08-C12, C47-C53: the regexes as data, kanji and roman numerals as an abstract codec with hypotheses for the
  numbers concerned, and an instance. The first version of C08 and C09 said that headings lose the branch numbers
  of the end of a range; the model shows that headings keep them and paragraph labels lose them, and both
  properties were corrected.
* C13: direct, all numbers. C14: characterisation of the regex matches against a declarative split spec.
* C15-C18, C34: round trip by induction on the syntax tree with one lemma for each kind; the domain is
  a decidable predicate `wf`. C16: the same induction proves the converse.
* C19-C26: universally quantified refutations of the round trip outside the domain, with exact results.
* C27-C33: theorems about the readers on arbitrary trees, by induction on the height of the tree.
* C36-C39: functions of `utils.rs` against independent in-order traversals (`UtilsSpec.v`). The first version of C37
  said that the numbers are those of the enclosing headings, of C38 that all texts are there, of C39 only that there
  is an entry for each heading. The model shows the slips described in the statements now (a hidden variable, a missing
  branch, a record that is passed on); the first versions are refuted with witnesses.
  `TocRowSpec.v` computes the rows from the list of headings and articles alone, from left to right (C39_rows_*).
* C59, C60: the texts listed, compared with the XML read, through the order lemmas for the readers.
* C35, C61, C62: for each reader, what holds of the parts it reads (`PartsFacts.v`), and which documents give parts that
  survive (`StableFacts.v`, `KeptFacts.v`): the plain ones of `PlainSpec.v`, and every document written by the writer.
* C63: `ReadingSpec.v` states a rule per kind of element over a relation for the children; `ReadingRules1.v` to
  `ReadingRules7.v` prove each reader equivalent to its rule, `ReadingExact.v` that the rules have one solution.  The
  only thing taken from the model in the rules is `refused` (a ruby, line or remarks that gives an error is dropped);
  `C63_refused` says what that is, and `C80_refused` says it in terms of the checks alone.
* C64: `DocTextSpec.v` gives the lines and the text of an article as a function of its XML; `DocTextFacts.v` derives
  from the rules of C63 that the listing of the parsed article is the same.
* C65, C66: `NumberSpec.v` is a grammar of headings and labels with the values of its numerals; `NumberFacts.v` proves
  that the first match of the expressions is the one of the grammar and that the values agree.
* C67, C68: `ItemSpec.v` says which texts are item labels, how they are divided and what numbers they have, and how
  a line is classified by them; `ItemReadFacts.v` proves that the expressions decide in the same way.
* C69, C70: `Api.v` models the public functions of lib.rs with the two functions of crate xmltree as parameters;
  `TidySpec.v` says what XML text keeps of a law, `TidyFacts.v` proves it with C29 (`sim`) and C16. `SampleXml.v` is
  a small XML printer and reader which shows that the hypothesis on the crate can be met for every law; it is not a
  model of xmltree.
* C71: `NeatSpec.v` says which documents are read to tidy values; `NeatFacts.v` proves it from the rules of C63 and
  puts C61, C16 and C70 together.
* C72: `Access.v` has the getters and setters of `utils.rs`, `AccessSpec.v` what a pair of them must satisfy.
* C73: `ErrorSpec.v` lists the faults an element can have and the error that reports each; `ErrorFacts.v` and
  `ErrorFacts2.v` prove that every error of every reader is the report of a fault.
* C74: `StoreSpec.v` says of one line whether it can be stored; `BodyFacts.v` follows the plain-text parser with an
  arbitrary property of structures that can be checked structure by structure, and `StoreFacts.v` uses it twice.
* C75: `ErrorText.v` transcribes the `#[error(...)]` formats; injectivity up to the first space (`ErrorTextSpec.v`), with
  the errors of the readers from C73.
* C76: `TextBuild.v` has the methods of `Text`; what a text shows and what calls add are inductive relations
  (`TextBuildSpec.v`).
* C77: the shape of results (`ShapeSpec.v`) says nothing of fuel, of the parser's state or of lines read, only
  which headings, articles, paragraphs and items can stand where.
* C78: `PrintSpec.v` says which lines stand for a listing; the proof runs the machine of C41 on the lines read and on
  the lines printed side by side.
* C79: `PlainListSpec.v` lists what the listings must say from the lines alone: rows by a stack of patterns, headings
  by a stack of open headings.  The proof goes through the listing of C41 in between.
* C80, C81: `EndSpec.v` is a table of the checks on each type in order, and a relation for going through them; neither
  refers to the readers.  Every reading is shown to end as the table says (`EndFacts2.v`, one case per type), and the
  relation to allow one ending only (`EndFacts.v`), so the table is exact.
* C82: `WrittenSpec.v` is a document type definition with attributes for what is written; it does not refer to the
  writers.  Its numbers are unbounded, as those of the model are.
* C83: `IndexSpec.v` says when sibling items have numbers of their own.
* C87: `DocListSpec.v` collects the headings and articles of an XML tree from the tags alone, each with the tags and
  `Num` attributes of the headings around it.
* C88: the rules of `ReadingSpec.v` again, and the round trip theorems for the values inside.
* C89: `CauseSpec.v` describes how a writer takes strings as an inductive relation without fuel; `CauseFacts.v` proves the
  loop of the model equivalent to it.
* C90: `OrderSpec.v` is a table of the sorts of child elements and of those of which the last counts; the proofs rest on
  the rules of C63.
* C91: `LayoutSpec.v` relates two texts by their lines; that blank lines can hang the parser rests on C40, what they
  add on C41.
* C94: `LocalSpec.v` has places in a tree, the kind of an element by its tag, and documents that differ in one place.
  A formula's number is an attribute read by the element around it, so it must not change; an example shows why.
  `LocalTocSpec.v` has the same for rows of the table of contents; C94_toc_rest_refuted shows what can change besides.
* C95: `CutSpec.v` says which line starts anew; proved with the machine of C41 and its exactness (C41_exact). That the
  condition is needed is C95_below_refuted.
* C96: `MendSpec.v` states what can be read (`legible`, on the structure only) and defines a writer of its own, `mend`,
  which is not part of the crate and serves as the witness. The elements are those of the element tree; that a
  tree is kept by the XML crate is the hypothesis `keeps` of C70; `PropMendText.v` has the theorems on texts under it.
* C97, C98: `DebugSpec.v` has the condition that texts are UTF-8 (which Rust guarantees) and the bytes of a text. The
  equality in C97 is the derived one of C92.
* C99: `StdoutSpec.v` says what is printed for a line by the same divisions as C65, C67 and C68; erasing the output gives
  the model of `TextParse.v` (C99_result).
* C100: `SameLinesSpec.v` relates two sequences of lines; it uses the levels of items of C41 (`next_items`). Proved from
  C41_listing_determines by reading the lines back from the listing.
* C101: `MatchSpec.v` defines derivations, their texts and groups, and which of two derivations is preferred; it has no
  engine. `MatchFacts.v` shows that the engine lists all derivations in this order. Repeated groups and repetitions that
  read nothing, where the model could differ from the crate, do not occur in the expressions of the crate.
* C102: `PatternSpec.v` is the grammar of patterns; `PatternReadFacts.v` proves the reader exact for it. `PatternFacts.v`
  proves expressions equivalent by a normal form for nesting and by comparing their classes on all characters.
* C103: `DebugLayoutSpec.v` lays values out as the padding writer of the standard library does, by indenting what is printed
  for an entry; it shares with `Debug.v` only the printing of texts and the declarations, and has no levels. `DebugJoinSpec.v` joins the
  lines of an output by looking at the output alone.
* C92: equality is Coq's equality. C93: `HashSpec.v` gives the calls as a relation over the declarations of
  `SerdeSpec.v`; that they determine the value is proved by peeling off one field after the other.
* C84-C86: `SerdeSpec.v` has the declarations of the 110 types as a table of data, made from the text of /repo/src, and
  one generic function for the normal form of a document; `SerdeFacts.v` proves each reader and writer of `Serde.v`
  to agree with it, `SerdeTable.v` collects all of them under the names of the table.
* C40-C46: the plain-text parser is a set of loops on fuel (`TextParse.v`); the result `None` for every fuel is an
  endless loop. The specification (`TextSpec.v`) is a one-pass machine over the lines with a stack of headings and
  a stack of item patterns. `TextFacts.v` shows that both agree for all lines; `OutlineFacts.v` describes by the lines
  alone when each outcome occurs. The first version of C43 said that a return over two item levels panics; the model
  shows that it nests deeper, and the property was corrected. The crate `koyomi` is the record `calendar`
  (two functions, no laws); `CodecSample.v` has a concrete instance.
* C54-C58: the classification of lines of plain text, `parse_line_contents`. `TextSpec.v` says how classified lines
  are written (`written`, `plain_text`) and what the first word of a line is; `LineFacts.v` and `ClassifyFacts.v`
  take each kind of line through the regular expressions and join it with the results on classified lines.

## 4. What cannot be expressed

* Byte-level XML syntax (escaping, encodings, indentation) lives in `xml-rs`, whose source is not available:
  only element-tree level statements are made.

## 5. Assumptions of the theorems

Every property theorem (files `Prop*.v`) is followed by `Print Assumptions`; each prints
"Closed under the global context": no axiom of the standard library and none of our own is used.
(The standard library files loaded along contain the seven declarations of `Coq.ssr.ssrunder.Under_rel`;
no theorem depends on them.)
