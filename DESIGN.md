# Formal model of fumiama/go-docx

The Go source in `/repo` is modelled by total, computable Gallina functions in
`rocq/theories/`. The properties of `properties.jsonl` are stated in the
`Prop*.v` files against small specifications (`Spec*.v`, `Reload.v`) and proved
for all inputs, states and histories. `MANIFEST.json` maps properties to
theorems.

## Trusted base

* The kernel of Coq 8.16.1.
* `Print Assumptions` is given below every property theorem. Every one of them
  is "Closed under the global context": no axiom, not even one of the standard
  library, is used. (The files load standard library modules that declare
  axioms, for instance in `ssrunder`; no theorem depends on them.)
* The faithfulness of the model, function by function. Every definition has a
  comment with file and lines; simplifications are stated there and below.
  `tools/coverage.py` lists the functions of `/repo` that no comment cites.
* Nothing is assumed about library functions that are parameters (class
  `GoLib`: `strconv.ParseFloat` with conversion to int, `md5`, the image size
  decoder; the encoding of an archive into writes in `Bufio.v`; the growth of
  slices in `Slices.v`). Theorems hold for every instance.

### Library behaviour that is modelled, so trusted to be as described

| library | where | what |
|---|---|---|
| `strconv` Itoa, Atoi, ParseInt, ParseUint | `Num.v`, `Lib.v` | decimal, 64 bit |
| `fmt.Sscanf("%d")`, `strings.TrimSpace` | `Lib.v`, `Unmarshal.v` | the white space of Unicode; line ends stop Sscanf |
| `strings` | `GoStr.v` | Split, HasPrefix, LastIndex |
| `encoding/xml` Encoder | `Marshal.v`, `Lex.v` | struct tags to trees, trees to bytes, escaping |
| `encoding/xml` Decoder (Go 1.20) | `XmlTok.v`, `Lex.v` | bytes to tokens, nesting, `DecodeElement`, `Skip`, the io.EOF mark of `unmarshalInterface` |
| `archive/zip` | `Pack.v` | an archive is its list of entries; names and contents are stored and restored; `Reader.Open` with path cleaning |
| `bufio.Writer` | `Bufio.v` | 4096 byte buffer, sticky error |
| `sync.Mutex`, `sync/atomic` | `Conc.v`, `Par.v` | mutual exclusion |
| `reflect` type names and methods | `Keep.v`, `Merge.v` | by name |
| IEEE 754 binary64 | `Api.v` | Coq's `SpecFloat` with round to nearest even |

Names in XML: the decoder model keeps the prefix instead of the name space URL;
the package looks at local names only. The characters names may have are those
of the tables of encoding/xml (`NameTab.v`). Entities other than the five
predefined ones and character references are errors, as in encoding/xml.

### Not modelled

* the embedded template files (`xml/`; a template is an
  arbitrary file system) except `_rels/.rels` and `[Content_Types].xml` of the
  default one, which `Theme.v` has byte for byte.
* `structcompatibility.go` (build tag ignore), the commented out `AAvLst`.
* The byte counts that `Docx.WriteTo` and `marshaller.WriteTo` return (always 0,
  so `io.Copy` from a document reports 0 bytes), and that `pack` never closes the
  template files it opens.
* `Docx.Read` and `marshaller.Read` (return an error constant),
  `BytesToString`/`StringToBytes` (identity), `Media.String`.
* Memory limits, `make` with enormous sizes, stack depth.
* Regular expressions: SplitByParagraph is proved for every separator function.
* Concurrency, except IncreaseID (`Conc.v`) and the shared state of the calls
  that add shapes, links and pictures (`Par.v`), with sequentially consistent memory.

### The library's own tests

`RepoTests.v` (written by `tools/mkrepotests.py`) runs all six tests in `/repo`
on the model with the XML and the expected values of the Go files: the numbers
of items loaded, the texts after MergeText under three rules, the MD5 sum of the
written relationships (with an MD5 in Coq), and the three tests that write,
load and write again. All give the result the Go test demands. They are tests of
the model, no property rests on them.

## Conventions

* Go `string` and `[]byte` are Coq `string` (bytes). Go `int`, `int64` are
  `i64`: an integer with its range proof, wrap-around by `i64_of`. `uintptr`
  counters are `N` modulo 2^64.
* A pointer field is an `option`; a pointer to an empty struct a `bool`; slices
  are lists. Three files treat sharing where it matters: `Merge.v` (text cells),
  `Slices.v` (backing arrays, C45), `Alias.v` (objects of a document, C44).
* An outcome is `Ok`, `Err` or `Panic` (`Docx.res`); the state after a panic is
  not modelled. Decoding ends in `SOk`, `SExp` (an error whose text begins with
  "expected", which the callers ignore), `SAbort`, or `SFuel`; theorems exclude
  `SFuel`.
* All documents of a program form the `world`; the `file` pointer of a
  paragraph is a position in it. `History.v` has the API calls as a data type
  and runs lists of them; an error leaves the state as the call left it, a panic
  ends the history. The partly filled document that Parse returns together with
  an error is not kept.
* The six namespace fields of a document are either all set or all empty: one
  flag (`d_ns`), clear only after Parse of a package without document part.

## Files

| files | contents |
|---|---|
| `GoStr` `Num` `Lib` | strings, numbers, library parameters |
| `Types` | element types, generated by `tools/gen_types.py` from the structs |
| `XmlTok` `Marshal` `Unmarshal` `UnmarshalNum` | trees, tokens, encoding and decoding of every element |
| `NameTab` `Lex` `Rels` `Pack` `Bufio` `Theme` | bytes of parts, relationships, packages, writing to a failing destination, the embedded template |
| `Docx` `Api` `Text` `Keep` `Copy` `Merge` | the document and its calls |
| `History` | histories of calls on many documents, values |
| `Alias` | the same calls on objects in memory |
| `Slices` | slices given to LoadBodyItems |
| `Conc` | goroutines calling IncreaseID |
| `Par` | goroutines adding shapes, links and pictures |
| `Spec*`, `Reload` | specifications |
| `Dec*` `RoundTrip*` `XmlFacts` `ChoiceFacts` `NumprFacts` `SkipFacts*` `SameWit` `LoadFacts` `LoadWit` `StrictFacts*` `LocFacts*` `IntFacts*` `ReadFacts*` `StableFacts*` `ValFacts*` | proofs about decoding |
| `Lex*Facts*` `LexFuel` `Form*` `DeclFacts` `SpellFacts2` `WellFacts` `RelsFacts` `PackFacts*` `BufioFacts*` `NsFacts*` `OpcFacts*` | proofs about bytes and packages |
| `RegFacts` `IdFacts` `ApiFacts` `HistFacts*` `HistInv` `LinkInv` `Drawn*` `NewFacts` `DrawIds` `EditFacts` `SizeFacts` `PanicFacts` `BreakFacts` `ShowFacts` `CopyMedia` `ErrorFacts` `ValHist` `HomeFacts` `ReopenFacts*` `CleanFacts*` `WriteFacts*` | proofs about editing |
| `CopyFacts*` `CopyTwice` `LeftFacts*` `MergeFacts*` `RuleFacts` `SpaceFacts` `SliceFacts` `ConcFacts` `ParFacts*` `AliasFacts*` `NumFacts` | proofs about the rest |
| `Cmd` `CmdFacts*` | the command line program |
| `Demo` `DemoFacts*` | the demo document of the command line program |
| `SpecAlike` `AlikeFacts` `AlikeWit` | texts that differ in ids only; copies with hyperlinks and pictures |
| `SpecRelNs` `RelNsFacts` `RelNsWit` | the namespace of the relationship part |
| `SpecSep` `SepFacts` | calls on separate documents |
| `SpecLast` `LastFacts` | sequences of formatting calls |
| `SpecWeave` `WeaveFacts` | calls on several paragraphs in turns |
| `SpecLayout` `LayoutFacts` | adding first, filling later |
| `SpecAnyTime` `AnyTimeFacts` | choosing the template early or late |
| `VerbFacts` `SteadyInv` `LawFacts` | copies byte for byte; laws of KeepElements and Drop |
| `Prop*` | the property theorems with their cases, nothing else |

## Method per property

| id | how |
|---|---|
| C01, C02 | induction on the text |
| C03-C06, C11, C27 | invariants of the registry over every history of calls, also after LoadBodyItems and Parse |
| C07 | exact condition proved; full claim refuted |
| C08 | equation on the state for every decoder |
| C09 | integer arithmetic, the float comparison through `SpecFloat` |
| C10 | interleaving semantics with a mutex, invariant over all schedules |
| C12-C18, C42, C43, C46-C48 | equations on the state, list inductions |
| C19, C20, C22 | induction over items of arbitrary worlds; the lookups that change by the invariant of the media index over every history |
| C21 | exact safe domain proved; full claim refuted |
| C23 | full claim refuted; result given exactly for all paragraphs and rules by a pointer-free specification (`SpecMerge2`): refinement of the heap of text cells into a template with open places, the template into a recursion over the runs still to come |
| C24, C25 | simulation of the merge loop with a heap of text cells |
| C26, C28 | lookups and a fold with early exit |
| C29-C32, C34, C35, C49 | tree level round trip by induction; the decoder simulates the specification |
| C33 | fuel bounds on every decoder; every decoder that succeeds without meeting a bad number reads exactly one element; what a decoder does depends only on the tokens of its element (`LocFacts*`), so all that stands before the first bad number, or before the first syntax error, is read as if nothing followed |
| C52 | the template is invariant over every history; archives as lists |
| C36-C39 | archives as lists, arbitrary order of entries, failing destinations |
| C40 | the lexer inverts the printer, for every tree with proper names |
| C41 | decimal printing and parsing are inverse |
| C50 | a grammar of spellings (`SpecForm`): one token of the lexer for every production and back (`FormMarkup`), then mutual induction on derivations and induction on trees (`FormFacts`) |
| C51 | invariant of everything the decoders can produce, for every sequence of tokens; every string the lexer gives is one XML can carry |
| C53 | scopes as an inductive condition on trees and on tokens; invariant of every history over the children of runs; for documents of any origin an equivalence between the scopes of the written tokens and a condition on the tree (SpecNs2.v, NsFacts3.v) |
| C54 | any predicate on values that holds of those read holds of those written, by induction over all decoders |
| C55 | a grammar of elements, slots and attributes; every marshalled tree conforms to a second grammar with the order of the library, by induction on nested shapes; the two orders are compared as subsequences of lists without repetition (`GrammarOrder`) |
| C56 | simulation: the decoders on two token sequences that differ in what is inserted; the relation is decided by a normal form (`trimmed`) |
| C57 | invariant of the relationships over every history; the two files of the template that matter are in the model byte for byte |
| C58 | interleaving semantics of every read and write of the shared state; counters by one invariant, IncreaseID by refinement to `Conc.v`, relationships by comparison with the sequential run |
| C59 | an invariant of the documents that builder calls make: no properties or file pointers are nil, drawings are those of the API |
| C60 | three invariants of histories: all strings in a document have any property that the strings given have (`ValHist`, over all V closed under the few string operations of the library), the numbers stay in range, and everything in document i refers to document i (`HomeFacts`); then C37 |
| C61 | the escaping of a string and of its cleaned version are the same bytes; so a document and its cleaned version, in which all strings are XML, are written as the same package (`CleanFacts*`: the trees written for cleaned items are the trees written for the items with their leaves cleaned), and C37 and the invariants of C60 apply to the latter |
| C62 | the facts behind C49 (a successful step has read exactly one element) give, loop by loop, which children were decoded into what; the loop of a run is followed through a stack of forests, because w:tab and mc:AlternateContent leave their content to it (`ReadFacts*`) |
| C63 | refinement: the content is plain data without pointers and registries (`SpecWrite`), each call, including those that remove content, is a step on it and each step is matched by the model (`WriteFacts2`); printing lemmas, one per element, give the bytes (`WriteFacts`); arbitrary bytes through the cleaning of C61 |
| C64 | each call computed on an arbitrary world; copying changes the destination only, so what a piece refers to is looked up in the world before the call; two invariants of histories: the media index is right, and pieces belong to their own document (`HomeFacts`) |
| C65 | a reader of the saved XML as a function on trees; trimming only shortens, so equality of the whole gives equality of the pieces; invariants of the merge loop (cells hold no white space at their ends, no text is taken over as it is) |
| C66 | computation without errors is closed under sequencing; one archive entry at a time, each met by the state the empty document has for it (names are distinct); decoding a forest of elements into relationships |
| C67 | the element names whose content the grammar of C55 keeps free of drawings, checked on the table of rules; then bottom-up through the marshallers; invariant over histories that hyperlinks have no drawings |
| C70 | the three parsers one after the other, against a specification by prefixes of the text |
| C71 | the specification is a relation between paragraphs and texts; equivalence by cases, with the invariant that media files are found (`BreakFacts`) |
| C72 | the first occurrence found by the reader is that of the specification; every token takes bytes (`LexFuel`) |
| C73 | a stream that is skipped or decoded to its end under the nesting check is a forest and an end element; then C50 |
| C74 | `fit` (`SpecLoad`) says which elements are loaded; one lemma per decoder (`LoadFacts`) that a stream of fitting elements is read to its end mark, or the bound of the recursion is met, which `DecFuel` excludes; then C50 and C56 |
| C75 | the program as a sequence of events with a result (`Cmd`); inversion of the steps of a finished run; file names by where the last slash and dot stand; the copies by induction over AppendFile, using that `same_item` survives a smaller world; reading the file for -u again by C60; when a run ends: every step as an equivalence, put together (C64 says when splitting and copying panic) |
| C76 | without links and pictures a copy has the same XML tree (`CopyFacts`); the body is cut out of the written text by counting `<`; an invariant (`SteadyInv`) over every history |
| C77 | equations on the state; maps and filters fused |
| C78 | the program's calls in stages; each stage computed for arbitrary pictures (they are opaque data); the strings by the invariant of `ValHist`; reading back by C37; texts carried over by `ReopenFacts2` |
| C79 | a relation between values ("the same but for ids"), carried through the copy functions and through the writer; what the writer makes of two such values is `alike`; the main part by the layout lemmas of C76 |
| C80 | the root element is found with the parser lemmas of C73 and C74; the registry invariant of C57 carries the value through every history |
| C81 | locality: worlds that agree on the documents a call works on or takes from give results that agree; frame: a call changes the document it works on only; both lifted to memory by C44 |
| C82 | every formatting call is an update, which may panic, at a path of list positions and fields; updates at different positions or of different fields commute, by one lemma per level of the path; updates of one field overwrite; lifted to memory by C44 |
| C83 | updates of different paragraphs commute (C82); induction on one order, taking its first call to the front of the other |
| C84 | updates at a position, and the numbers taken from a registry, are the same if something follows in the body; one by one the filling calls are moved behind the adding ones |
| C85 | every editing call commutes with the change of the template field of any document |
| C69 | invariant over histories: every relationship is one of the three first ones or is named by a hyperlink or picture in the body, every media file has a relationship; then from the body through the marshallers to the bytes read back |
| C68 | the relation between a source and its copy (C20) composes; then induction over the appended parts |
| C44 | objects in memory simulate values as long as nothing shared is written to; exact effect otherwise |
| C45 | backing arrays: what an append may overwrite |

## Where code and claim disagree

Each is proved as a theorem named `..._refuted`, with a theorem giving the
exact domain on which the claim holds.

| id | what the code does |
|---|---|
| C07 | Parse sets the picture counter to 100000, so a package with `image100001.png` loses it when a picture is added |
| C21 | a picture added by the API has a media reference that copying and String cannot find; they panic |
| C22 | LoadBodyItems leaves the picture counter at 0: a picture added later may get the name of a loaded one |
| C23 | MergeText loses text before a tab, break or drawing when it merges runs and moves text across hyperlinks |
| C31 | `numPr` is written but never read: its decoder (`UnmarshalNum.v`) would give back what was written, but nothing calls it |
| C32 | `w:b w:val="0"` is read as bold |
| C33 | two bad integer attributes end the loading of paragraph and document early, so what follows is never checked: an unclosed document loads without an error |
| C35 | only the last piece of character data of a text element is kept |
| C38 | WriteTo drops the error of `zip.Writer.Close`; up to 4096 bytes may be missing; `C38_exactly` says for every destination what arrives and which failures are reported |
| C39 | a directory entry outside `word/media` makes the parsed document unwritable |
| C44 | copies share property objects with their source: styling a copied run styles the source |
| C45 | appending writes behind the end of the caller's slice when it has spare capacity |
| C55 | the children of `w:pPr`, `w:numPr`, `w:tblPr` and `w:tcPr` are not written in the order ECMA-376 requires (e.g. `w:jc` before `w:pStyle`, `w:numId` before `w:ilvl`). The grammar also admits what the library writes and the standard does not have: `w:rPr` in `w:p`, `w:kern` in `w:pPr`, attributes on `w:tab` in runs, `xml:space` on `w:r` |
| C56 | (the exceptions of the statement) 29 attribute-only elements fail to load with anything in them, even a comment: a `wp:docPr` with the `a:extLst` that Word writes makes Parse fail; white space in `mc:AlternateContent` does, too; `xmlns:w` declared on `w:pgSz` is taken for its width |
| C57 | (the conditions of the statement) the list of content types is fixed, so a picture whose kind is not in it, such as a GIF, makes the package incomplete; New without a theme gives a package without content types |
| C58 | (the condition of the statement) addLinkRelation and addImage append without a lock: two goroutines adding links can lose one |
| C59 | (the exact domain in the statement) String of a paragraph with a picture that AddInlineDrawing or AddAnchorDrawing added panics, since the drawing has no file pointer; so do AddTable with a negative size and pictures of width 0 |
| C60 | (part of the statement) a document made by LoadBodyItems shows links and pictures through the document the items come from; saved and opened again, it does not find them |
| C62 | (part of the statement) the text of a hyperlink written by Word stands in w:t, but String shows w:instrText; text in w:ins, w:sdt and the like is skipped |
| C64 | (the exact domain in the statement) styling a parsed run, table, row or cell without properties panics; a relationship whose target is shorter than `media/` makes copying and String panic |
| C65 | AddText writes `w:t` without `xml:space="preserve"`, MergeText drops it from loaded text: blanks at the ends of text are not shown by readers that follow the standard |
| C66 | (the exact domain in the statement) packages whose relationship ids are not `rId` and a number are refused; a package without a main part opens as an empty document |
| C75 | (the exact domain in the statement) `cmd/main -s` panics for a name without extension; `-d` for a file in a directory wants to write into a subdirectory `dup_` |
| C67 | (the exact domain in the statement) DropDrawingOf and the Drop methods look at the runs of a paragraph only; drawings in hyperlinks stay |
| C69 | KeepElements and the Drop methods take content out of the body only: its pictures and addresses stay in every file saved later |
| C79 | (the exact domain in the statement) AppendFile and SplitByParagraph lose the transparency of pictures (`a:alphaModFix`): the new blip is made from the id and the compression state alone |
| C80 | (part of the statement) a relationship part that declares its namespace with a prefix is saved in the namespace of officeDocument relationships; `parseDocRelation` presets `XMLNS_R` where `XMLNS_REL` is right |
| C81 | (part of the statement) a paragraph loaded from another document registers new hyperlinks and pictures there |
| C83 | (part of the statement) with hyperlinks the order of calls on different paragraphs shows in the relationship ids |
| C53 | a frame without locks, a prefix `a` or `pic` declared on an outer element, and a picture in a group are saved with an undeclared prefix; a package without document part is saved with `xmlns:w=""` |
| C49 | an integer attribute that reads as "expected integer" ends the loading of its element without an error |

## Wrong programs

`tools/mutate.py` applies the edits of `seeded/mutants.jsonl` to a scratch copy
and rebuilds it; `seeded/LOG.jsonl` records what failed. Edits that nothing
noticed led to the theorems named in their `tightened` field.

Most edits that survived were tried again, after theorems had been added, as a
later line of the log (the text of the edit may be shorter there) and were caught.
These were not; by inspection, not by proof, they make no difference that a caller
could see:

* error texts (`ERR_OPEN`, `ERR_WRITE`, `ERR_RELID`, `ERR_XML`): the claims are
  about whether a call returns an error, not about its text;
* `Alias.h_set`, `h_copy_child`, `h_keeps` for a pointer to nothing: no history
  reaches such a memory;
* `Lex.char_ref` for the one number past the last code point: its encoding is not
  valid UTF-8, so the text is refused in any case;
* `Unmarshal.alt_loop` at the end of the input inside a Choice: with an element
  open the tokenizer gives a syntax error instead;
* `Pack.to_valid` of the name `/`: neither result is a name that `zip_open` looks for;
* `Pack.zip_open` of a directory without an entry: a parsed document opens names
  of entries only, and these are found before;
* `GoStr.mem`, a helper that was unused and has been removed.
