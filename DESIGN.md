# Formal model of benedoc-inc/pdfer in Rocq (Coq 8.16.1)

## Layout

* `rocq/theories/*Model.v`  – executable Gallina transcription of the Go functions, one definition per Go function
  (or per loop), each with a comment citing file:lines in `/repo` and any simplification.
* `rocq/theories/*Spec.v`   – small independent specifications used in statements (where one is needed).
* `rocq/theories/*Proofs.v` – lemmas.
* `rocq/theories/*Props.v`  – only property theorems, each `exact lemma`, each followed by `Print Assumptions`,
  with `Example`s showing that the hypotheses are met by concrete non-trivial data.

Conventions: a Go `[]byte`/`string` is `list byte` (`Coq.Init.Byte.byte`, so every value is a real byte); `error` and
run-time panics are values of `result A := Ok a | Err | Panic`; Go `int` is `Z`/`N`/`nat` unless wrap-around matters
(then the wrap is explicit); maps are association lists or functions and map iteration order is an explicit
permutation argument; loops are structural recursion or fuelled recursion with the out-of-fuel case a distinct value
that the theorem excludes.

Theorem suffixes: `_partial` = a proved part of the property (what is missing is said in the comment and in
MANIFEST.json); `_refuted` = the full statement is false of the faithful model, shown by a witness.

## Plan per property

| id | modelled | proof |
|----|----------|-------|
| C01 | Encode/DecodeASCIIHex byte by byte | induction on the string with decoder state; white-space insertion by a relation |
| C02 | Encode/DecodeASCII85 with uint32 wrap | arithmetic of base-85 digits, rounding lemma for partial groups, induction on 4-byte groups |
| C03 | Encode/DecodeRunLength | strong induction on the unread input; size bound alongside |
| C04 | decoders' error branches | characterisation of the accepted language |
| C05 | DecodeFilter, Flate as an oracle argument | case analysis |
| C06 | PDFWriter as state machine | invariant over call sequences + refinement to a map |
| C07 | Write byte for byte | offsets as lengths of prefixes; induction on the object list |
| C08 | Write + both readers | composition: search lemmas for startxref/xref/trailer, table parse, object slice |
| C09 | Write with map order as permutation argument | sortedness + permutation uniqueness |
| C10 | xref stream writer and reader | big-endian width lemmas |
| C11 | object stream writer and reader | refutation by witness; positive theorem for the conforming layout in C21 |
| C12 | escape/unescape functions, PDF literal-string reader as spec | induction; refutation for the library's unescape |
| C13 | FindAllEOFMarkers, ExtractRevision, CountRevisions | induction over the search |
| C14 | mergeSections, parseStandard merge, document lookup | fold invariants; refutation for free entries |
| C15 | parseXRefChain over an abstract "section at offset" function | visited-set measure |
| C16 | PDFDocument lookups, ParseRawObject | list lemmas |
| C17 | slice operations return Panic when out of range | witnesses (refuted) and total functions (proved) |
| C18 | FindObjectByNumber | refutation + soundness modulo digit prefix |
| C19 | first/last startxref search | search lemmas; refutation for the trailer functions |
| C20 | predictor loop of ParseXRefStreamFull | row induction; refutation for Average/Paeth |
| C21 | GetObjectFromStream | parse of the decimal header, slicing |
| C22–C26 | encryption: PKCS#7, CBC, key wrap, RC4, per-object keys; AES-128, SHA-256, MD5, RC4 concrete | AES proved invertible, CBC/ECB/padding by induction on blocks; dictionary text read back; ISO 32000-1 algorithms 2-5 as specification |
| C27 | rotation arithmetic and page edit | `mod` arithmetic |
| C28 | range computation | induction on remaining pages |
| C29–C32 | page-tree text edits with hand-modelled regular expressions | search lemmas + refutations |
| C33–C38 | LCS dynamic programme, diffs, filters | DP invariant, optimality by induction over both lists |
| C39–C40 | collector state machine, error chain | induction over operations |
| C41–C45 | AcroForm validation, lookup, fill, rebuild | decision procedures, refutations |
| C46 | outline creation as a recursive allocator | tree induction |
| C47 | content stream builder | fold over calls |
| C48 | FontDecoder and CMap parser | case analysis/induction; `Nto*`: the decoder of a font object with a ToUnicode stream (over `extractFontDecoder`) |
| C49 | page-tree walk with fuel | tree induction, refutation on cycles |
| C50–C52 | font subset, cmap 4/12, JPEG header | induction; refutations for the 32-bit loop and slice bounds |

| C53–C56 | writer content rules, stream dictionaries, outlines entry, Info dictionary | segments of printed dictionaries, refutations |
| C57–C60 | keyed comparison, summary, metadata, page list | list/map lemmas |
| C61–C62 | page insertion, rebuild | shape of the node text kept by edits |
| C63–C65 | forms: builder, reader, schema, flattening | search lemmas over the printed dictionary; composition with C08 read-back; refutations |
| C66–C69 | page builder sessions, resource names, watermarks, image objects | invariant over call histories, list indexing, refutations |
| C72 | base encoding tables | transcribed tables compared with an independent statement of Annex D, lifted to all strings; fonts that name an encoding, themselves or in an encoding object, get that decoder, fonts without one the standard one (`Named*`, over `extractFontDecoder`) |
| C73 | content_stream.go | every line of the writer's output dispatches to its handler; the reader's state is a function of the calls so far; induction. `TjArr*`: text arrays of other programs (nested parentheses, hex, numbers between) after any such history, by induction on the pieces |
| C74 | builder session → file → ExtractPages | composition of C66, C08 and C73 with search lemmas over the printed page and font dictionaries |
| C75 | outline objects → ExtractBookmarks; SetBookmarks → ExtractBookmarks | induction over a tree of items linked by references; refutations for cycles, titles and URIs |
| C76 | /Annots of a page → annotations | induction over the reference array, one field lemma each; refutations by computation |
| C77 | ExtractContent against ExtractPages, first resource of each name | simulation between the two page readers; fold invariant; any map order as a permutation |
| C78 | image object → Image; AddJPEGImage/AddImage → file text → Image | search lemmas over the printed dictionary; refutations by computation |
| C79 | ExtractToDirectory after extraction, with an oracle for writable files | induction over the images; file names are injective in the position |
| C80 | BuildFromXFA on the writer model, ExtractAllXFAStreams on the reader model, decompressors as oracles | structure of the written file; the first /AcroForm is the catalog's; the entries of the array are matched one by one |
| C81 | the two update functions as byte-string functions; a document is a list of texts and fields | a tag cannot begin in a text that lacks it; each update refines 'set the first field of that name'; the fold refines a pointwise fill, which depends only on the map |
| C82 | the four appends on slices that share the caller's array (array contents, lengths, capacity explicit) | case analysis on overlap and capacity; exact result in each case |
| C83 | object scan, dictionary reader and copying of xfa_builder.go, unencrypted | match-by-match induction over the objects and the keys; frame lemmas for the heap of dictionaries |
| C84 | the token loop and the token writer of xfa_datasets_translator.go; floats are an abstract type with ParseFloat and FormatFloat as arguments | fold over the tokens with insertion of white space as a relation; induction over fields and groups |
| C85–C86 | the token loop and the token writer of xfa_form_translator.go, except the page count | inserted white space as a relation; one lemma per element; induction over questions and over the items of a template |
| C87–C89 | `UForm*`: forms/forms.go over the models of both kinds of forms; agreement by case analysis, round trip by composing C80, C84, C85 and C63, filling by composing C81 and C82; crash and lost filter by evaluation. |
| C90–C92 | `Acts*`: forms/acroform/actions.go, appearance.go, integration.go over the writer model; exact texts by the lemmas about the last ">>" and about replacing matches, read-back of strings by C12, of the document by C08. |
| C93 | `Report*`: core/compare/report.go over the comparison of C33–C38, C57–C60; lines by list induction, verdict by C58. |
| C94, C95 | `Types*`: types/warnings.go with a heap of backing arrays (append in place or into a new array of any capacity), invariant by induction over the calls; types/errors.go as chains, errors.Is by induction over the chain. |
| C96, C97 | `XData*`: writer and reader of xfa_connection_translator.go and xfa_locale_translator.go over XML tokens; encoding/xml between them is the relation `conveyed` (indentation anywhere the printer may put it). Proof: one lemma per element about the reader's state, induction over the items. |
| C98, C99 | `XConf*`: the same for xfa_stylesheet_translator.go (floats abstract) and xfa_config_translator.go; no panic by an invariant on the reader's state over all token sequences. |
| C100, C101 | `Stream*`: forms/xfa/stream.go as a state machine over (data, position); C100 by simulation of every call by an ideal cursor, for all histories; C101 by analysis of where the header reader starts (one byte early), the dictionary loop with fuel (non-termination is a theorem over all fuels). |
| C102 | `XFields*`: core/parse/xfa_parser.go as a token state machine; the specification describes a field by its attributes and parts; proof by induction over the parts and the items; soundness for all token sequences by an invariant. |
| C103 | `Appr*`: flatten.go GetFieldAppearance with its three patterns as matchers; first-occurrence lemmas; composition with the read-back theorem C08 for documents the writer makes. |
| C104 | `Fall*`: the readers xfa_utils.go falls back on, with the caller's array as state (append through a slice of it); window and first-occurrence lemmas give the exact object; composition with ExtractAllXFAStreams. |
| C105 | `Res*` (on the model `MarksModel`): a relation between a font or image object and what is reported of it; induction over the entries of the resource dictionary and over the page tree. |
| C106 | Composition of the form model: `RebuildObjectStream`, `findStreamForObject`, `fill_entries`, `FillFormFields` on files that contain a conforming object stream (induction over the form data, scanning lemmas for the rewritten object); unknown names by induction; two directly stored fields refuted (panic) by computation. Partial: the rewritten stream lacks its index (C45) and the reader cannot read the result. |
| C107 | `std_dict`/`std_file` (StdSpec.v) write the dictionary and the file of another producer; scanning lemmas of CryptProofs2 give every field; composition with `user_opens_iso` (C25). Missing /Length for revision 3 and unsigned permissions refuted. Partial: passwords of 1 to 31 bytes (C25), owner password, crypt filter dictionaries. |
| C108 | Unfolding of `SetupAES256Encryption` against the independent `stored_u`, `stored_o`, `chain_key` of StdSpec.v, for all inputs; conformance to ISO 32000-2 refuted for all inputs (length of UE/OE) and on an example (hash of U). |
| C109 | `Piece*`: ParsePDFHeader, RevisionBytes modelled, ParsePDFDocument from `ParseModel`; invariants of parse_revisions by induction over the markers (objects, ends, order); start of a revision as a minimum (fold); written documents by the structure of Write. Panic of RevisionBytes characterised; overlap and junk before the header refuted. |
| C110 | `Piece*`: ParseTrailerDataRaw and the raw bytes of cross-reference sections; splitting lemmas of `index`; scanning of the written trailer. Offsets outside the file refuted (panic). Partial: cross-reference streams, encrypted documents. |
| C111 | `Crash*`: the page operations of `ManipModel` over a document with arbitrary object texts; induction on the stack shows that each crashes exactly when one can walk from the root of the page tree as many kids down as there is stack. An exact condition for every operation, merging included. Circles refuted as an unconditional claim (crash for every stack). |
| C112 | `Crash*`: the same for bookmarks, fields, contents; the XFA reader by cases on its slices (crashes exactly for a huge /Length in the object of an entry). Circles of kids of the form refuted (crash for every stack). |
| C113 | `FTree*`: field dictionaries as lists of entries laid out with any white space (spec); a search lemma for any key and any of the four notations over such a dictionary; induction on the tree. Partial: strings without escapes, names that are not keys. Refuted: references for flags, keys in nested dictionaries, values with spaces in arrays, export values, escapes, inherited attributes. |
| C114 | `XTmpl*`: the token machine of `XFormModel`; a view of the current field and how each token changes it, induction on the body, the fields and the items; attributes by induction with unique keys. |
| C115 | XForeignSpec: what a document says (attributes of elements called so, elements and what is between their tags, the last attribute of a name), independent of the readers' states; XDataModel and XConfModel: readers and writers | invariants over all token sequences (each section of the result is the fold of the attributes of its elements so far); writers by locating each section in the tokens. Partial: texts between tags (properties, holidays) are left to C96, C97, C99; refuted: the attributes of validate, common and output are not read |
| C116 | WmarkModel: the numbers of watermark.go on exact rationals (cosine and sine are parameters); WmarkSpec: an interpreter of content-stream calls after the PDF standard (what is drawn, under which transformation, colour, font, size) | computing the composed transformation and comparing it with rotation about the middle, for all sizes and angles. Partial: no rounding; refuted: opacity darkens instead of fading, a missing X or size is not defaulted, nil options fail |
| C117 | CmpSymSpec: mirror images of reports, entry by entry | induction over both lists: the greedy matching is the same from either side for any symmetric test; IEEE distances are symmetric; the element diff keeps its counts because what is left for it never stands at the same place and a longest common subsequence is as long from either side; refuted for which elements are reported (ties) and for repeated shapes |
| C118 | MdFldSpec: names of fields letter by letter; MdFldModel: the loop over the map in any order | induction over the fields from the right; for ASCII names without two spellings of one field; refuted for two spellings (order decides) and for dotted capital I |
| C119 | `Perf*`: the byte-perfect half of api.go on top of `ParsePDFDocument` of `ParseModel`; the merged offsets against the newest raw object (`merge_newest`), the last revision by induction from the end, both readings by scanning the header (`ReaderProofs`). Partial: both readings for objects with a well-formed header at their offset in unencrypted documents, number of revisions only bounded. Refuted: agreement with the standard mode (objects in object streams, moved objects, number of revisions), agreement of the two readings when the offset is a byte early (object 12 is read for object 2). |
| C11 (more) | WStmSpec: the text of the objects of a stream, and the text as many bytes later as the index is long | GetObjectFromStream on what createObjectStreams makes is computed for all object lists: index and data are located, offsets added; the last object is never read back |
| C55 (more) | OutlCatSpec: text catalogs, first and last occurrences | case analysis of updateCatalogWithOutlines for all catalogs: dictionaries keep their entries; every text catalog with /Type and /Pages is replaced by three entries with a broken /Pages |
| C20 (more) | PredRowSpec: tables with any of the five PNG filters | induction over the rows: the rows are recovered if and only if Average and Paeth left their rows unchanged |
| C70–C71 | font embedding, ToUnicode, font names | composition of the writer's object lemmas; hex printing/reading; refutations |

## Modules

* `Base`, `Util`, `Utf8`, `Scan` – bytes, decimal numbers, search, maps, UTF-8 (Go's decoder and encoder), regular-expression helpers.
* `Filters*` – core/parse/filters.go and core/write/ascii*.go, runlength: ASCIIHex, ASCII85, RunLength, filter dispatch.
* `Writer*` – core/write/writer.go: object table, dictionary formatting, Write, xref table/stream, object streams.
* `Parse*`, `Xref*`, `ReadProofs`, `PanicProofs`, `ReadProps` – core/parse: startxref, xref tables and streams, chains of
  revisions, object lookup, object streams, raw objects, trailer; read-back of written documents.
* `Text*`, `ContentProofs`, `MetaProofs` – string escapes, content stream builder, Info dictionary writing and extraction.
* `Compare*` – core/compare: text diff (phases, LCS, word and character diff, sensitivity), keyed comparison, images, forms,
  metadata, pages, whole documents.  float64 is the standard library's `SpecFloat` binary64.  Map iteration order of image
  resources is a permutation argument.  Content extraction, `Sprintf("%.1f")` and `reflect.DeepEqual` are arguments.
* `Warn*` (C39, C40) – types/errors.go, types/warnings.go, a first and simpler model: slices with shared arrays and append growth as an argument, errors without identity. `Types*` below models the same code in more detail.
* `Manip*` – core/manipulate: dictionary text edits, rotation, deletion, insertion, extraction, splitting, merging, rebuild.
  A parsed document is an argument (trailer references, GetObject, Objects() in any order).  Recursion over the page tree is
  bounded by an argument standing for the goroutine stack.
* `Forms*` – forms/acroform: field tree parsing, names, values, validation (fields and schemas), builder, filling, object
  stream rebuilding, flattening.  `interface{}` values are a sum type with the texts fmt prints; regexp.MatchString and
  ParseFloat of the schema rules are arguments.  Appearance streams are in `Acts*`/`Appr*`, XFA in `Xfa*`.

* `Prim*` – AES-128 (encrypt, decrypt), MD5, SHA-256, RC4 written from the standards (FIPS 197, RFC 1321, FIPS 180-4) with their
  published test vectors as examples; they stand for Go's crypto packages.  AES decryption is proved to invert encryption.
* `Crypt*` – core/encrypt and core/write/encryption*.go: key derivation, password checks, the encryption dictionary and its
  parser, object encryption and decryption, DecryptPDF, api.go handleEncryption.  Random values are arguments.
  `CryptSpec` holds algorithms 2 to 5 of ISO 32000-1.  Logging and the X.509 handlers are not modelled.
* `Page*` – core/write/page.go, bookmarks.go, watermark.go, image.go: page builders and SimplePDFBuilder sessions, outlines,
  watermarks, JPEG headers, image objects.  Page sizes are their printed texts; the numbers a watermark computes in float64
  are given; what image.Decode returns is given (a function from coordinates to colours).
* `Encoding*` – content/extract/encoding.go complete; `EncodingTables` is generated from the Go map literals (MacExpert and the
  glyph list included); the regular expressions are hand-written matchers.
* `Extract*` – content/extract/content_stream.go complete; float64 addition and multiplication are SpecFloat's, strconv.ParseFloat
  and Sprintf("%.4f") are arguments.  `ExtractSpec` says what a history of ContentStream calls shows.
* `Reader*` – conforming files as the standard describes them (any subsections, generations, line ends, /Index, encrypted object streams) read by the parse model: no new model code, a specification of files (`ReaderSpec`) and theorems about `ParseModel`.
* `XPages*` – content/extract/pages.go (without the fields Resources and Annotations), dict_helpers.go, the font decoders of
  resources.go:345-616; the goroutine stack is an argument.
* `Marks*` – content/extract/bookmarks.go, annotations.go, resources.go:1-340, images.go, extract.go, directory.go and the fields of a page that
  `XPages*` leaves out.  Not modelled: JSON encoding, base64, the document metadata (see `Meta*`), the fields that are never set; which
  files can be written is an argument; int overflow is modelled where a sum is compared with a length (images.go:92).
* `Xfa*` – forms/xfa/xfa.go, forms/xfa/xfa_utils.go:533-651 and 788-922, core/write/xfa_builder.go. Not modelled there: the fallback readers
  xfa_utils.go:20-530 and 691-786 (oracles), encryption in BuildFromOriginal, logging.
* `Datasets*` – forms/xfa/xfa_datasets_translator.go at the level of XML tokens: encoding/xml is trusted to turn the written tokens into the same
  tokens plus character data outside value elements, or to fail (names that are not XML names, text that is not valid UTF-8 or holds control
  characters are outside the model). strconv.ParseFloat and FormatFloat are arguments.
* `XForm*` – forms/xfa/xfa_form_translator.go, on the same tokens and with the same trust in encoding/xml; extractPageCount and logging are not
  modelled. A default is the text Sprintf("%v") prints for it; strconv.ParseFloat and the printing of floats are arguments.
* `UForm*` (C87–C89): forms/forms.go. Parameters: encoding/xml's tokens, the encryption package, xfa_utils.go's older searches for objects.
* `Acts*` (C90–C92): forms/acroform/actions.go, appearance.go, integration.go. Numbers printed with %.2f or %v are texts.
* `Report*` (C93): core/compare/report.go GenerateReport; %.2f is a parameter. GenerateJSONReport (encoding/json) is not modelled.
* `Types*` (C94, C95): types/warnings.go (without time stamps) and types/errors.go; errors.Is and append of the standard library are modelled.
* `XData*`, `XConf*` (C96–C99): the four smaller translators of forms/xfa and their types. Trusted: encoding/xml conveys tokens as the relation `conveyed` of XDataSpec says (names ASCII without colon, texts of XML characters); Sprintf("%v") is an argument. Logging, and the decoder's errors on text that is not XML, are not modelled (the reader then stops with what it has: a prefix of the tokens).
* `Stream*` (C100, C101): forms/xfa/stream.go, all functions reachable from ReadObjectFromXRef. encrypt.DecryptObject and decryptInChunks are parameters; logging is not modelled; Go's int is 64 bits (additions wrap).
* `XFields*` (C102): core/parse/xfa_parser.go. Trusted: encoding/xml's tokenisation (tokens are the input, together with the text for the "<field" test).
* `Appr*` (C103): forms/acroform/flatten.go:101-142.
* `Fall*` (C104): forms/xfa/xfa_utils.go:19-156, 177-530, 661-800, and ExtractAllXFAStreams with these readers as its fallbacks.
* `Res*` (C105): specification and proofs about content/extract/resources.go:13-334 and pages.go:65-309, modelled in `MarksModel`.
* `Fill*` (C106): filling forms end to end, on `FormsModel`.
* `Std*` (C107, C108): encryption dictionaries of other producers, stored strings of version 5, on `CryptModel`.
* `Piece*` (C109, C110): core/parse/document.go:225-278, document_parser.go:53-109, 212-224, 293-303, 331-418.
* `Crash*` (C111, C112): no code of its own; statements about `ManipModel`, `XPagesModel`, `FormsModel`, `XfaModel`.
* `FTree*` (C113): no code of its own; statements about forms/acroform/parser.go in `FormsModel`.
* `XTmpl*` (C114): no code of its own; statements about forms/xfa/xfa_form_translator.go in `XFormModel`.
* `XForeign*` (C115): what XFA configuration, locale and connection documents say, for every token sequence
* `Wmark*` (C116): the geometry of watermarks, with an interpreter of the operators they use
* `WStm*` (C11), `OutlCat*` (C55), `PredRow*` (C20): exact statements, for all inputs, of what earlier theorems refuted by example
* `CmpSym*` (C117): the comparison from the other side
* `MdFld*` (C118): metadata records from named fields
* `PerfModel.v` (C119): core/parse/api.go, the byte-perfect mode (OpenWithOptions, parseBytePerfect, the getters, GetRawObject). Left out: trailer information and Size, warnings, verbose output.
* `Font*` – resources/font: table directory, name table, character maps of format 4 and 12 (encoders of the OpenType layout are
  in `FontSpec`), subsets, widths, PDF objects.  unicode.IsPrint, Sprintf("%.4f") and compress/zlib are arguments; the 32-bit
  loop of format 12 runs on fuel, `None` meaning it has not ended.

## Trusted base

* Coq 8.16.1 kernel and its `vm_compute`.
* `Print Assumptions` of each property theorem, run at the end of every `*Props.v`: all of them (539 at the last count)
  answer `Closed under the global context`. No theorem uses an axiom, not even one of the standard library; there are no
  parameters, functors, module types or admitted proofs in the development. Section variables (`Context`) are generalised:
  they appear as universally quantified arguments in the theorems (decompressors, number printing, map orders, ...).
* Slices have capacity equal to their length: `b[i:j]` with `len(b) < j <= cap(b)` does not panic in Go (it shows bytes
  beyond the end), the model says Panic.  A function proved not to panic never takes such a slice.
* The faithfulness of the transcription (the Go code was read, not run). Not modelled: zlib/deflate (oracle),
  Go `regexp` engine (the patterns used are transcribed by hand as leftmost greedy matchers), XML, image codecs,
  JSON, file system, floating point (unless said otherwise).
