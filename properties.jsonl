{"id": "C01", "title": "ASCIIHex filter round trip", "statement": "For every byte string d, DecodeASCIIHex(EncodeASCIIHex(d)) succeeds and returns exactly d; white space inserted anywhere in the encoded text does not change the result, and text after the '>' marker is ignored.", "quantifier": "all byte strings of any length; all white-space insertions", "why_tests_cant": "Byte strings of unbounded length; a test samples a few strings, while pairing/odd-digit errors depend on length parity and position of separators.", "anchors": ["core/parse/filters.go:DecodeASCIIHex", "core/parse/filters.go:EncodeASCIIHex"]}
{"id": "C02", "title": "ASCII85 filter round trip", "statement": "For every byte string d, DecodeASCII85(EncodeASCII85(d)) succeeds and returns exactly d, including lengths not divisible by four and all-zero groups.", "quantifier": "all byte strings of any length", "why_tests_cant": "The partial last group rounds, so correctness is an arithmetic fact about all 2^8..2^24 tails and every length; tests sample it.", "anchors": ["core/parse/filters.go:DecodeASCII85", "core/parse/filters.go:EncodeASCII85"]}
{"id": "C03", "title": "RunLength filter round trip and size bound", "statement": "For every byte string d, DecodeRunLength(EncodeRunLength(d)) succeeds and returns exactly d (also with bytes after the end marker), and the encoding is at most len(d)+ceil(len(d)/3)+1 bytes, a bound that is attained.", "quantifier": "all byte strings of any length", "why_tests_cant": "Run boundaries (127/128 repeats, literals broken by runs) interact for every length and repetition pattern.", "anchors": ["core/parse/filters.go:DecodeRunLength", "core/parse/filters.go:EncodeRunLength"]}
{"id": "C04", "title": "Filter decoding is total and fails cleanly", "statement": "DecodeASCIIHex, DecodeASCII85 and DecodeRunLength return either data or an error for every input, never run past the end marker, and report an error for every input containing an illegal character before the marker or truncated run.", "quantifier": "all byte strings", "why_tests_cant": "Hostile inputs are unbounded; absence of a panic or of silently accepted garbage is a universal statement.", "anchors": ["core/parse/filters.go:DecodeASCIIHex", "core/parse/filters.go:DecodeASCII85", "core/parse/filters.go:DecodeRunLength"]}
{"id": "C05", "title": "Filter dispatch by name", "statement": "DecodeFilter treats a filter name with or without its leading slash identically, applies exactly the named decoder, passes JPEG data through unchanged only when it starts with the JPEG marker, and rejects every name it does not know.", "quantifier": "all data strings and all filter names", "why_tests_cant": "The set of names is infinite; the claim includes every unknown name.", "anchors": ["core/parse/filters.go:DecodeFilter", "core/parse/filters.go:DecodeDCTDecode"]}
{"id": "C06", "title": "Writer object registry is a last-writer-wins map with fresh numbers", "statement": "After any sequence of AddObject, AddStreamObject, SetObject, SetStreamObject and NextObjectNumber calls, every number handed out by Add is new (never returned before, never already used), and GetObject(n) returns the content most recently stored under n.", "quantifier": "all finite sequences of writer calls", "why_tests_cant": "Histories are unbounded; SetObject with an arbitrary number interacts with the counter.", "anchors": ["core/write/writer.go:PDFWriter", "core/write/writer.go:AddObject", "core/write/writer.go:SetObject"]}
{"id": "C07", "title": "Cross-reference table of a written file points at its objects", "statement": "In the bytes produced by Write, the table entry of every object number in use holds the exact byte offset where that object's 'N G obj' header starts, unused numbers are marked free, every entry is 20 bytes, and the startxref value is the exact offset of the xref keyword.", "quantifier": "all writer states (any number of objects, any contents)", "why_tests_cant": "Offsets depend on the length of everything written before; holds for every combination of contents, not for sampled files.", "anchors": ["core/write/writer.go:Write", "core/write/writer.go:SetObject"]}
{"id": "C08", "title": "What is written can be read back", "statement": "For every set of objects written with Write, parsing the produced bytes and asking for object n returns the content stored under n.", "quantifier": "all writer states whose contents do not contain the structural keywords", "why_tests_cant": "Composition of the writer and the two readers over arbitrary contents and sizes.", "anchors": ["core/write/writer.go:Write", "core/parse/parser.go:ParseTraditionalXRefTable", "core/parse/get_object.go:GetDirectObject", "core/parse/document_parser.go:ParsePDFDocument"]}
{"id": "C09", "title": "Writing is deterministic", "statement": "Two calls to Write on the same writer contents produce the same bytes, whatever order Go iterates its maps in.", "quantifier": "all writer states and all map iteration orders (schedules)", "why_tests_cant": "Map iteration order is chosen by the runtime at random; a test sees a few orders.", "anchors": ["core/write/writer.go:Write", "core/write/writer.go:formatDictionary"]}
{"id": "C10", "title": "Cross-reference stream round trip", "statement": "For every table of free, direct and compressed entries, the binary entry data and widths produced by the writer's cross-reference stream are decoded by the reader to the same table.", "quantifier": "all entry tables, all offsets", "why_tests_cant": "Field widths are computed from the largest value; boundaries at 256^k for every column.", "anchors": ["core/write/xref_stream.go:writeXRefStream", "core/parse/object_stream.go:ParseXRefStreamFull"]}
{"id": "C11", "title": "Object stream round trip", "statement": "An object written inside a compressed object stream is returned unchanged by GetObjectFromStream at the same index.", "quantifier": "all lists of objects, all indices", "why_tests_cant": "Offsets inside the stream depend on all object lengths.", "anchors": ["core/write/object_stream.go", "core/parse/object_stream.go:GetObjectFromStream"]}
{"id": "C12", "title": "Literal strings survive escaping", "statement": "For every text, the escaped form the writer puts between parentheses is a balanced PDF literal string that a PDF reader decodes back to that text, and the library's own unescape function inverts the library's own escape function.", "quantifier": "all byte/rune strings", "why_tests_cant": "Backslash sequences interact (e.g. backslash followed by n); only a universal statement excludes every interaction.", "anchors": ["core/write/content.go:escapePDFString", "core/write/metadata.go:escapePDFStringForMetadata", "content/extract/metadata.go:unescapePDFString"]}
{"id": "C13", "title": "Revisions are prefixes of the file", "statement": "For every file, ExtractRevision(k) returns a prefix of the file that ends just after the k-th %%EOF marker and its line end, revision sizes increase, and CountRevisions equals the number of markers.", "quantifier": "all byte strings, all k", "why_tests_cant": "Files are unbounded and markers may be adjacent or truncated.", "anchors": ["core/parse/incremental.go:FindAllEOFMarkers", "core/parse/incremental.go:ExtractRevision", "core/parse/incremental.go:CountRevisions"]}
{"id": "C14", "title": "Newest revision wins", "statement": "For every chain of cross-reference sections, an object lookup after an incremental update returns the entry of the newest section that mentions the object; an object freed by the newest section is no longer present.", "quantifier": "all chains of sections, all object numbers", "why_tests_cant": "Unbounded revision histories; interaction of in-use, free and compressed entries.", "anchors": ["core/parse/incremental.go:mergeSections", "core/parse/document_parser.go", "core/parse/document.go:GetObject"]}
{"id": "C15", "title": "Following /Prev always terminates", "statement": "For every file, including ones whose /Prev pointers form a cycle, following the cross-reference chain stops after visiting each section at most once.", "quantifier": "all /Prev graphs", "why_tests_cant": "Cyclic graphs of any shape; termination cannot be tested.", "anchors": ["core/parse/incremental.go:parseXRefChain"]}
{"id": "C16", "title": "Byte-perfect document", "statement": "A parsed document returns the input bytes unchanged, each raw object's bytes are the exact slice of the input starting at its recorded offset, and GetObject/HasObject/ObjectCount/AllObjects agree with each other.", "quantifier": "all input files, all object numbers", "why_tests_cant": "Statement about every input and every slice.", "anchors": ["core/parse/document.go:PDFDocument", "core/parse/document_parser.go:ParseRawObject"]}
{"id": "C17", "title": "Parsing never panics", "statement": "No byte string makes the parser index or slice out of range.", "quantifier": "all byte strings", "why_tests_cant": "Adversarial input space.", "anchors": ["core/parse/get_object.go", "core/parse/xref_stream.go", "core/parse/object_stream.go", "core/write/image.go:parseJPEGHeader", "resources/font/font.go"]}
{"id": "C18", "title": "Object search finds the right object", "statement": "When FindObjectByNumber returns a position for n, the bytes there are the header of object n, not of another object whose number ends in the same digits.", "quantifier": "all files, all object numbers", "why_tests_cant": "Requires excluding every colliding digit suffix.", "anchors": ["core/parse/parser.go:FindObjectByNumber"]}
{"id": "C19", "title": "The last startxref is the one used", "statement": "For every file with several revisions, the trailer and the cross-reference location used are those of the last revision.", "quantifier": "all files, any number of revisions", "why_tests_cant": "Unbounded histories of appended revisions.", "anchors": ["core/parse/parser.go:ParsePDFTrailer", "core/parse/incremental.go:findLastStartXRef"]}
{"id": "C20", "title": "PNG predictors are undone", "statement": "For every table of rows filtered with any PNG predictor, decoding a cross-reference stream returns the unfiltered rows.", "quantifier": "all rows, all column counts, all predictor tags", "why_tests_cant": "Row-by-row dependence with modulo-256 arithmetic over unbounded data.", "anchors": ["core/parse/object_stream.go:ParseXRefStreamFull"]}
{"id": "C21", "title": "Objects in a conforming object stream are found", "statement": "For every object stream whose header lists the objects' numbers and offsets relative to /First, GetObjectFromStream returns exactly the requested object's bytes.", "quantifier": "all lists of objects, all indices", "why_tests_cant": "Unbounded number and sizes of objects.", "anchors": ["core/parse/object_stream.go:GetObjectFromStream"]}
{"id": "C22", "title": "AES-256: the right password recovers the file key", "statement": "After SetupAES256Encryption(user, owner), the user password and the owner password each verify and each unwrap to the same 32-byte file key.", "quantifier": "all passwords, all random salts and keys", "why_tests_cant": "Cryptographic data is random; equality must hold for every salt and key.", "anchors": ["core/write/encryption_v5.go:SetupAES256Encryption", "core/encrypt/key_derivation.go"]}
{"id": "C23", "title": "AES-256: a wrong password is rejected", "statement": "A password whose hash does not match is not accepted.", "quantifier": "all passwords, all encryption dictionaries", "why_tests_cant": "Only a universal statement excludes a bypass.", "anchors": ["core/encrypt/key_derivation.go:VerifyUValueV5", "core/encrypt/decrypt.go:DecryptPDF"]}
{"id": "C24", "title": "Encrypted streams decrypt to the plaintext", "statement": "For every stream, every object number and every key, decrypting what the writer encrypted returns the original bytes, and tampered padding or lengths give an error rather than a panic.", "quantifier": "all data, keys, initialisation vectors, object numbers", "why_tests_cant": "Padding and block boundaries for every length.", "anchors": ["core/write/encryption_helper.go", "core/encrypt/decrypt.go:DecryptObject"]}
{"id": "C25", "title": "Encryption keys are per object and RC4 decryption inverts encryption", "statement": "For the password-based handlers the right user password is accepted, and applying RC4 twice with the same key returns the original data.", "quantifier": "all passwords, keys, data", "why_tests_cant": "RC4 state evolution over unbounded data.", "anchors": ["core/encrypt/key_derivation.go", "core/encrypt/decrypt.go"]}
{"id": "C26", "title": "Objects of an encrypted document read back", "statement": "In a document written with encryption, GetObject returns the stored dictionary content of non-stream objects unchanged.", "quantifier": "all contents", "why_tests_cant": "Depends on content length modulo 16.", "anchors": ["core/parse/get_object.go:GetDirectObject", "core/write/writer.go"]}
{"id": "C27", "title": "Rotation arithmetic", "statement": "RotatePage accepts exactly the angles 90, 180 and 270; the new rotation is (old+angle) mod 360 in [0,360); repeated rotations compose; no other page changes.", "quantifier": "all rotation histories, all old values including negatives", "why_tests_cant": "Histories are unbounded.", "anchors": ["core/manipulate/rotation.go:RotatePage"]}
{"id": "C28", "title": "Splitting partitions the pages", "statement": "SplitPDFByPageCount(k) yields consecutive ranges that cover every page exactly once in order, each of at most k pages and only the last smaller than k; SplitPDF accepts exactly ranges within the document.", "quantifier": "all page counts and all k", "why_tests_cant": "Unbounded page counts; ceil-division boundaries.", "anchors": ["core/manipulate/splitting.go"]}
{"id": "C29", "title": "Deleting a page deletes just that page", "statement": "After DeletePage(s), the remaining pages are exactly the other pages in their original order and the page count is the old count minus the number deleted.", "quantifier": "all page lists, all sets of deleted pages", "why_tests_cant": "Every combination of object numbers (digit suffix collisions) and of page sets.", "anchors": ["core/manipulate/deletion.go"]}
{"id": "C30", "title": "Merging keeps every reference consistent", "statement": "After MergePDFs, every indirect reference of each source document points at the copy of the object it pointed at before, and pages appear in input order.", "quantifier": "all lists of documents, all reference graphs", "why_tests_cant": "All reference graphs, including forward references.", "anchors": ["core/manipulate/merging.go"]}
{"id": "C31", "title": "Extracting pages keeps the pages", "statement": "ExtractPages(list) produces the listed pages in the listed order with their contents and everything they reference.", "quantifier": "all documents and page lists", "why_tests_cant": "All object numberings, including collisions with freshly allocated numbers.", "anchors": ["core/manipulate/extraction.go"]}
{"id": "C32", "title": "Dictionary edits change one key", "statement": "setDictValue(dict,key,value) followed by extractDictValue(dict,key) returns value, and the values of other keys do not change.", "quantifier": "all dictionaries, keys and values", "why_tests_cant": "All texts; key prefixes and existing references interact.", "anchors": ["core/manipulate/manipulate.go:setDictValue", "core/manipulate/manipulate.go:extractDictValue"]}
{"id": "C33", "title": "Text diff uses a longest common subsequence", "statement": "The matches used by the text diff are strictly increasing in both texts, pair only equal elements, and no longer such matching exists.", "quantifier": "all pairs of sequences, all match relations", "why_tests_cant": "Optimality quantifies over all alternative matchings.", "anchors": ["core/compare/myers_diff.go:findLCSMatches"]}
{"id": "C34", "title": "Text diff accounts for every element", "statement": "In every comparison each element of the old text is matched, modified or removed exactly once, each element of the new text is matched, modified or added exactly once, and applying the diff turns the old text into the new one.", "quantifier": "all pairs of texts", "why_tests_cant": "Unbounded inputs and all overlap patterns.", "anchors": ["core/compare/myers_diff.go:myersDiff", "core/compare/text_diff.go"]}
{"id": "C35", "title": "Comparing a document with itself reports no difference", "statement": "For every document and option set, comparing the document with itself yields Identical=true.", "quantifier": "all documents and options", "why_tests_cant": "All documents, including ones with duplicate graphics or annotations.", "anchors": ["core/compare/compare.go:ComparePDFsWithOptions", "core/compare/compare.go:compareGraphics", "core/compare/compare.go:compareAnnotations"]}
{"id": "C36", "title": "Form comparison is the exact difference of two value maps", "statement": "Added are exactly the fields only in the new form, removed exactly those only in the old one, modified exactly those in both with different values; the three sets are disjoint and no entry is repeated.", "quantifier": "all pairs of field-value maps, all iteration orders", "why_tests_cant": "All maps and all iteration orders.", "anchors": ["core/compare/compare.go:compareForms"]}
{"id": "C37", "title": "Text normalisation and change ratio", "statement": "Normalising text is idempotent, normalised-equal texts compare equal, and the change ratio is symmetric, between 0 and 1 and 0 exactly for equal texts.", "quantifier": "all texts and options", "why_tests_cant": "All strings.", "anchors": ["core/compare/text_diff.go:normalizeTextForComparison", "core/compare/text_diff.go:calculateChangeRatio"]}
{"id": "C38", "title": "Sensitivity only hides modifications", "statement": "Raising the threshold or relaxing sensitivity never invents a difference, never drops an addition or removal, and a higher threshold reports a subset of what a lower one reports.", "quantifier": "all diffs, thresholds", "why_tests_cant": "All diff results and thresholds.", "anchors": ["core/compare/text_diff.go:applySensitivityFilter"]}
{"id": "C39", "title": "Warning collector keeps order and loses nothing", "statement": "After any sequence of operations, the collector holds exactly the warnings added while it was enabled since the last Clear, in order; filters return exactly the matching warnings in order.", "quantifier": "all operation sequences", "why_tests_cant": "Unbounded histories.", "anchors": ["types/warnings.go:WarningCollector"]}
{"id": "C40", "title": "Error classification survives wrapping", "statement": "An error created with a code is recognised by that code through any number of wrapping layers.", "quantifier": "all wrapping depths and codes", "why_tests_cant": "Unbounded wrapping depth.", "anchors": ["types/errors.go"]}
{"id": "C41", "title": "Form validation accepts exactly the valid data", "statement": "ValidateField returns an error exactly when a required value is missing, a text value exceeds MaxLen or a choice is not among the options; ValidateFormData returns no error exactly when every supplied field exists and is valid and every required field is supplied.", "quantifier": "all fields, values, forms and data maps", "why_tests_cant": "All forms of any nesting depth and all data.", "anchors": ["forms/acroform/validation.go"]}
{"id": "C42", "title": "Field lookup by name", "statement": "FindFieldByName returns a field with that name if and only if the form has one, and the first one in document order; GetFullName joins the ancestors' names with dots.", "quantifier": "all field hierarchies, all names", "why_tests_cant": "Unbounded hierarchies.", "anchors": ["forms/acroform/extract.go"]}
{"id": "C43", "title": "Field flags", "statement": "Any sequence of SetRequired/SetReadOnly calls leaves the required and read-only flags equal to the last value set for each and never changes another flag bit.", "quantifier": "all flag words, all call sequences", "why_tests_cant": "All histories and flag words.", "anchors": ["forms/acroform/writer.go:SetRequired", "forms/acroform/writer.go:SetReadOnly"]}
{"id": "C44", "title": "Filling a form changes only the filled field", "statement": "FillFormFields writes the given value into the named field and leaves every other object readable and unchanged.", "quantifier": "all PDFs, all data maps, all values", "why_tests_cant": "All object numbers and all values (e.g. values containing $).", "anchors": ["forms/acroform/replace.go", "forms/acroform/fill_streams.go"]}
{"id": "C45", "title": "Rebuilding an object stream keeps the other objects", "statement": "After an update of some objects inside an object stream, every other object of the stream is read back unchanged and the updated ones with their new content.", "quantifier": "all object streams and updates", "why_tests_cant": "All object lists.", "anchors": ["forms/acroform/stream_rebuild.go"]}
{"id": "C46", "title": "Outline tree is linked correctly", "statement": "For every bookmark forest, the written outline has one object per bookmark with distinct numbers, sibling Prev/Next chains in order, First/Last pointing at the first and last child, Parent pointing at the parent, and counts equal to the number of descendants.", "quantifier": "all bookmark forests of any depth and width", "why_tests_cant": "All trees.", "anchors": ["core/write/bookmarks.go"]}
{"id": "C47", "title": "Content streams are well formed", "statement": "For every sequence of drawing calls whose names are PDF names and whose texts are valid UTF-8, a PDF tokenizer reads from the content stream exactly the operators and operands of the calls, in call order, and the save/restore nesting it sees is that of the calls.", "quantifier": "all call sequences", "why_tests_cant": "Unbounded histories.", "anchors": ["core/write/content.go"]}
{"id": "C48", "title": "Character decoding priority", "statement": "Text extraction maps each character code by the font's ToUnicode map if it has an entry, else by Differences, else by the base encoding, else as Latin-1; a range in the ToUnicode map maps code c to start+(c-lo).", "quantifier": "all fonts, all code strings", "why_tests_cant": "All maps and strings.", "anchors": ["content/extract/encoding.go:FontDecoder", "content/extract/encoding.go:ParseToUnicodeCMap"]}
{"id": "C49", "title": "Page order is the left-to-right order of the page tree", "statement": "ExtractPages returns one page per leaf of the page tree in left-to-right order numbered 1..n, and terminates on every file.", "quantifier": "all page trees, including cyclic ones", "why_tests_cant": "All graphs.", "anchors": ["content/extract/pages.go", "core/manipulate/manipulate.go"]}
{"id": "C50", "title": "Font subsets", "statement": "After any sequence of AddString/AddRune calls the subset holds exactly the distinct characters added, in first-use order; the glyph list is strictly increasing, contains glyph 0 and exactly the mapped glyphs.", "quantifier": "all call sequences, all fonts", "why_tests_cant": "Unbounded histories.", "anchors": ["resources/font/font.go:AddRune", "resources/font/font.go:GetSubsetGlyphs"]}
{"id": "C51", "title": "Font tables are read as specified and always terminate", "statement": "The character map read from a format 4 or 12 table maps each code as the table says, and reading terminates on every table; widths are those of the glyph asked for.", "quantifier": "all font files", "why_tests_cant": "All 16/32-bit boundary values, including 0xFFFFFFFF.", "anchors": ["resources/font/font.go:parseCmapFormat4", "resources/font/font.go:parseCmapFormat12", "resources/font/font.go:GetWidths"]}
{"id": "C52", "title": "JPEG dimensions", "statement": "For every JPEG whose segments precede a frame header, AddJPEGImage reports the frame header's width, height and colour space; every other input gives an error.", "quantifier": "all byte strings", "why_tests_cant": "All segment sequences.", "anchors": ["core/write/image.go:parseJPEGHeader"]}
{"id": "C53", "title": "A stream's dictionary states its own length", "statement": "After any sequence of calls, the dictionary written with a stream has /Length equal to the number of data bytes written for that stream.", "quantifier": "all sequences of stream calls, including several calls with the same dictionary value", "why_tests_cant": "Depends on aliasing of caller-owned maps across an unbounded history.", "anchors": ["core/write/writer.go:AddStreamObject", "core/write/writer.go:SetStreamObject", "core/write/writer.go:Write"]}
{"id": "C54", "title": "Stream objects keep their dictionary", "statement": "A stream object stored with any data, including none, is written with its dictionary (all keys other than Length and Filter unchanged) and its data.", "quantifier": "all dictionaries and all data", "why_tests_cant": "Ranges over all dictionaries and the nil/empty data corner.", "anchors": ["core/write/writer.go:SetStreamObject", "core/write/writer.go:Write"]}
{"id": "C55", "title": "Adding bookmarks keeps the catalog", "statement": "Writing a document with an outline adds an /Outlines entry to the catalog and leaves its other entries unchanged.", "quantifier": "all catalogs", "why_tests_cant": "Depends on how the catalog text is re-parsed.", "anchors": ["core/write/writer.go:updateCatalogWithOutlines"]}
{"id": "C56", "title": "Document metadata round trip", "statement": "For every set of title, author, subject, keywords, creator, producer, dates and custom fields, the metadata extracted from the Info dictionary that SetMetadata stores is the metadata that was set.", "quantifier": "all metadata records", "why_tests_cant": "Values, custom keys and their order in the dictionary range over unbounded sets, and a pattern for one field may match inside the value of another.", "anchors": ["core/write/metadata.go:SetMetadata", "content/extract/metadata.go:parseInfoDict"]}
{"id": "C57", "title": "Graphics and annotations are compared exactly", "statement": "Comparing two pages reports as added exactly the graphics (annotations) whose type and bounding box occur only on the new page and as removed exactly those only on the old one, counting repetitions.", "quantifier": "all pairs of pages", "why_tests_cant": "All pages, including those that repeat a shape.", "anchors": ["core/compare/compare.go:compareGraphics", "core/compare/compare.go:compareAnnotations"]}
{"id": "C58", "title": "Identical and the difference count agree with the report", "statement": "For every pair of documents and every option set, Identical is true exactly when no metadata, structure, page, bookmark or form difference is reported, and exactly when the summary counts 0 differences.", "quantifier": "all pairs of documents, all options", "why_tests_cant": "All combinations of differences.", "anchors": ["core/compare/compare.go:ComparePDFsWithOptions"]}
{"id": "C59", "title": "Metadata comparison reports exactly the differing fields", "statement": "Unless metadata is ignored, a field is reported exactly when its values differ and the options do not exclude it (producer, dates).", "quantifier": "all pairs of metadata records, all options", "why_tests_cant": "All records and option combinations.", "anchors": ["core/compare/compare.go:compareMetadata"]}
{"id": "C60", "title": "Page differences are reported once, in order, under the right number", "statement": "The page differences come in strictly increasing page number; page k appears exactly when the k-th pages differ or only one document has a k-th page, with what their comparison reports.", "quantifier": "all pairs of documents", "why_tests_cant": "All lengths and all patterns of equal and different pages.", "anchors": ["core/compare/compare.go:comparePages"]}
{"id": "C61", "title": "Inserting a page puts it at the asked position", "statement": "InsertPage(p, page) makes the page number p of the document (the last one for p = 0), keeps the other pages in order, adds one to the page count and changes no other object.", "quantifier": "all documents, positions and histories of insertions", "why_tests_cant": "Unbounded page lists and histories; nested page trees.", "anchors": ["core/manipulate/insertion.go:InsertPage"]}
{"id": "C62", "title": "Rebuilding keeps every object", "statement": "Rebuild writes a document with the same root whose objects are the edited objects, and reading them back gives the same object texts.", "quantifier": "all documents", "why_tests_cant": "All object texts.", "anchors": ["core/manipulate/manipulate.go:Rebuild"]}
{"id": "C63", "title": "A built form is read back", "statement": "The fields added with FormBuilder (names, types, values, defaults, flags, options, maximum lengths, rectangles) are what ParseAcroForm reports for the written document, in the order they were added.", "quantifier": "all sequences of builder calls, all texts", "why_tests_cant": "Unbounded lists of fields and arbitrary texts in names and values.", "anchors": ["forms/acroform/writer.go:Build", "forms/acroform/writer.go:createFieldObject", "forms/acroform/parser.go:ParseAcroForm"]}
{"id": "C64", "title": "Flattening removes the form and keeps the document", "statement": "FlattenForm returns a readable document with the same objects and pages but without an interactive form; FlattenField removes one field.", "quantifier": "all documents with forms", "why_tests_cant": "All documents.", "anchors": ["forms/acroform/flatten.go:FlattenForm", "forms/acroform/flatten.go:FlattenField"]}
{"id": "C65", "title": "The form schema describes every field", "statement": "ToFormSchema has one question per field with its name, label, options, limits and required/read-only state, distinct IDs, and the type that was built (check box, radio button, push button, text, choice).", "quantifier": "all forms, all builder calls", "why_tests_cant": "All field trees and flag words.", "anchors": ["forms/acroform/parser.go:ToFormSchema", "forms/acroform/parser.go:ToQuestion", "forms/acroform/writer.go:AddCheckbox"]}
{"id": "C66", "title": "A built document has its pages in order", "statement": "However calls that create pages, add fonts, images, content, other objects and bookmarks are interleaved, the finished document has a catalog and a page tree that lists the finalised pages in order, and each page object carries its size, its resources and its drawn content.", "quantifier": "all histories of calls on a SimplePDFBuilder and its page builders, all map iteration orders", "why_tests_cant": "Unbounded histories.", "anchors": ["core/write/page.go:FinalizePage", "core/write/page.go:Build", "core/write/page.go:Bytes"]}
{"id": "C67", "title": "A resource name stands for the resource it was returned for", "statement": "Every name that AddStandardFont, AddEmbeddedFont or AddImage returns denotes, in the finished page, the font or image that the call was made for, and adding a font twice gives the same name.", "quantifier": "all sequences of such calls", "why_tests_cant": "Collisions need particular sequences.", "anchors": ["core/write/page.go:AddStandardFont", "core/write/page.go:AddImage", "core/write/page.go:AddEmbeddedFont"]}
{"id": "C68", "title": "Watermarks are self-contained", "statement": "AddWatermark draws the text or image asked for and leaves the graphics state and the other resources of the page as they were, or returns an error without changing the page.", "quantifier": "all options, pages and texts", "why_tests_cant": "All combinations of options and page states.", "anchors": ["core/write/watermark.go:AddWatermark"]}
{"id": "C69", "title": "Images keep their pixels", "statement": "The image object made by AddImage holds the samples of every pixel of the decoded image, row by row, with the right dimensions and colour space, and its transparency as a mask.", "quantifier": "all decoded images of any size", "why_tests_cant": "All sizes and pixel values.", "anchors": ["core/write/image.go:AddImage"]}
{"id": "C70", "title": "Embedding a font adds four linked objects", "statement": "Embedding a font adds exactly four new objects (font file, descriptor, ToUnicode map, font dictionary) that refer to each other, with one width per glyph of the subset and the whole font program as the file, and leaves every other object of the document alone; the dictionaries are valid PDF.", "quantifier": "all fonts, all subsets, all documents", "why_tests_cant": "All font files and all writer states.", "anchors": ["resources/font/pdf.go:ToPDFObjects", "resources/font/pdf.go:createFontDict", "resources/font/pdf.go:createFontDescriptor"]}
{"id": "C71", "title": "ToUnicode and font names are written so that they read back", "statement": "For every glyph of the subset the ToUnicode map names a character that the font shows with that glyph, independently of map iteration order, in codes of the declared code space; a font name is written so that a reader gets it back.", "quantifier": "all character maps, all subsets, all iteration orders, all names", "why_tests_cant": "Map iteration order is random and glyph numbers range over 16 bits.", "anchors": ["resources/font/pdf.go:createToUnicodeCMapData", "resources/font/pdf.go:escapeName"]}
{"id": "C72", "title": "Standard text encodings", "statement": "A font decoder with base encoding WinAnsiEncoding, MacRomanEncoding or StandardEncoding decodes every byte that has a character in that encoding to the Unicode character ISO 32000 Annex D gives it.", "quantifier": "all byte strings", "why_tests_cant": "All strings; the tables have about 200 entries each and unit tests sample a few.", "anchors": ["content/extract/encoding.go:SetBaseEncoding", "content/extract/encoding.go:winAnsiEncoding", "content/extract/encoding.go:macRomanEncoding", "content/extract/encoding.go:standardEncoding"]}
{"id": "C73", "title": "Reading a page's content back", "statement": "For every sequence of ContentStream calls, extracting the content stream yields one text element per show call, in order, with the decoded text and the font, size, position, spacing, rise and matrix in force at that call, one graphic per rectangle and line with the colours and line width in force, and one image reference per drawn image with the matrix in force.", "quantifier": "all sequences of content stream calls of any length, all strings, numbers, resource names and font decoders", "why_tests_cant": "The state in force at a call depends on the whole history of calls before it; the reader works line by line with regular expressions, whose result depends on every byte of every string.", "anchors": ["content/extract/content_stream.go:parseContentStream", "content/extract/content_stream.go:parseTextArrayWithDecoder", "content/extract/content_stream.go:createTextElement", "core/write/content.go:ContentStream"]}
{"id": "C74", "title": "What was drawn is what is extracted", "statement": "For every history of SimplePDFBuilder calls (pages opened, fonts and images added, content drawn, pages finalised in any order), opening the bytes and extracting the pages returns one page per finalised page, in the order of finalisation and numbered from 1, with the size it was created with and exactly the texts, shapes and image references that were drawn on it.", "quantifier": "all call histories, all numbers of pages and fonts, all contents, all map iteration orders", "why_tests_cant": "The property composes the page builder, the writer, the cross-reference reader, the dictionary searches, the font decoders and the content parser over unboundedly many histories; a test covers one document.", "anchors": ["core/write/page.go:SimplePDFBuilder", "core/write/page.go:FinalizePage", "core/parse/api.go:Open", "content/extract/pages.go:ExtractPages", "content/extract/resources.go:extractFontDecoder"]}
{"id": "C75", "title": "Bookmarks are read as the document has them", "statement": "ExtractBookmarks (and ExtractContent) returns the outline of the document: every item, in order, with its children, title, destination and URI; what SetBookmarks wrote is read again as the same tree; a malformed outline gives an error or a shorter list, never a crash.", "quantifier": "all outlines of any size and depth, all titles and destinations, all files", "why_tests_cant": "Outlines are trees of any shape linked by object references; a test fixes one tree and one way of writing it.", "anchors": ["content/extract/bookmarks.go:ExtractBookmarks", "content/extract/bookmarks.go:extractBookmarksRecursive", "core/write/bookmarks.go:SetBookmarks"]}
{"id": "C76", "title": "Annotations of a page are read completely", "statement": "For each page the extracted annotations are exactly those of its /Annots array, in order, each with the page's number, type, rectangle, contents, colour, border, URI, destination and quad points its object gives; no input crashes the extraction.", "quantifier": "all pages, all annotation objects and arrays, all spellings the standard allows", "why_tests_cant": "The arrays, objects and spellings are unbounded; a test covers the spelling the author thought of.", "anchors": ["content/extract/annotations.go:extractAnnotations", "content/extract/annotations.go:extractAnnotation", "content/extract/pages.go:extractPage"]}
{"id": "C77", "title": "ExtractContent is consistent with its parts", "statement": "The pages ExtractContent returns are those of ExtractPages; its annotations are those of the pages in page order; its fonts and images contain each font and image of the pages exactly once, whatever the map iteration order.", "quantifier": "all documents, all numbers of pages and resources, all map iteration orders", "why_tests_cant": "Consistency must hold for every document and for iteration orders that Go randomises; a test sees one order.", "anchors": ["content/extract/extract.go:ExtractContent", "content/extract/resources.go:extractResources"]}
{"id": "C78", "title": "Extracted images are the images of the document", "statement": "For each image object the extracted width, height, colour space, bits, filter and format are those of its dictionary and the data is its stream's data; a JPEG that was added comes back byte for byte and a picture comes back sample for sample; ExtractAllImages returns images and only images; no input crashes it.", "quantifier": "all image objects, all data and sizes, all pictures and JPEG files, all documents", "why_tests_cant": "Image data is arbitrary bytes, any of which may look like a marker; tests use a few images.", "anchors": ["content/extract/images.go:extractImageData", "content/extract/images.go:ExtractAllImages", "core/write/image.go:AddJPEGImage", "core/write/image.go:AddImage"]}
{"id": "C79", "title": "The output directory describes itself", "statement": "ExtractToDirectory writes each extracted image with data to a file of its own, lists exactly the written files with their sizes and properties, and its summary counts the pages, characters and images of the document and says correctly whether there are texts, images, forms and bookmarks.", "quantifier": "all documents, all lists of images, all sets of files that cannot be written", "why_tests_cant": "Name collisions and partial write failures depend on the list of images and on the file system; a test covers one list on a healthy disk.", "anchors": ["content/extract/directory.go:ExtractToDirectory"]}
{"id": "C80", "title": "XFA streams survive build and extraction", "statement": "A document built from XFA streams (BuildFromXFA, BuildPDFFromXFAStreams) gives back, through ExtractAllXFAStreams, every stream that was put in, with its data and object number, and no other; no object crashes the reader.", "quantifier": "all sets of the nine kinds of streams, all data, compressed or not, all map iteration orders of the writer", "why_tests_cant": "Stream data is arbitrary bytes that may contain PDF keywords or look compressed; tests use two or three XML fragments.", "anchors": ["forms/xfa/xfa.go:ExtractAllXFAStreams", "forms/xfa/xfa.go:extractStreamDataFromObject", "forms/xfa/xfa.go:BuildPDFFromXFAStreams", "core/write/xfa_builder.go:BuildFromXFA", "forms/xfa/xfa_utils.go:findXFAArrayContent"]}
{"id": "C81", "title": "XFA field updates set the named fields only", "statement": "UpdateXFAValues sets the value of the first field of each given name and leaves every other byte of the document alone, whatever the order in which the map of values is iterated, and never crashes.", "quantifier": "all documents of text and fields, all maps from names to values, all iteration orders", "why_tests_cant": "The result must not depend on Go's random map order nor on the texts around and inside the fields.", "anchors": ["forms/xfa/xfa.go:UpdateXFAValues", "forms/xfa/xfa.go:UpdateXFAFieldValues"]}
{"id": "C82", "title": "Replacing a stream changes that stream only", "statement": "ReplaceStreamInPDF returns the file with the new data in the named object, its Length adjusted and every other byte unchanged, and does not change the caller's slice.", "quantifier": "all files, all object numbers, all new data of any length, all capacities of the caller's slice", "why_tests_cant": "Whether append reuses the caller's array depends on lengths and capacities; tests happen to use one combination.", "anchors": ["forms/xfa/xfa_utils.go:ReplaceStreamInPDF", "forms/xfa/xfa.go:UpdateXFAInPDF"]}
{"id": "C83", "title": "Rebuilding keeps every other object", "statement": "RebuildPDFFromXFAStreams (BuildFromOriginal) writes every object of the original again with the same meaning, except the XFA streams for which new data is given, which get that data; no input crashes it.", "quantifier": "all files, all objects and dictionaries, all new stream data, all map iteration orders", "why_tests_cant": "Dictionaries are arbitrary; a test compares the XFA streams only and never looks at the other objects.", "anchors": ["core/write/xfa_builder.go:BuildFromOriginal", "core/write/xfa_builder.go:parseAllObjects", "core/write/xfa_builder.go:parseDictionary", "core/write/xfa_builder.go:parseXFAArrayFromContent", "forms/xfa/xfa.go:RebuildPDFFromXFAStreams"]}
{"id": "C84", "title": "Form data survives the datasets stream", "statement": "DatasetsToXFA followed by ParseXFADatasets gives back the form data: every field with its name and its value, in the same group, every group with its name, nested the same way and in the same order, whatever the order in which Go iterates over the fields.", "quantifier": "all form data, all map iteration orders, all white space inserted by the encoder", "why_tests_cant": "Values, names and nesting are arbitrary and the value types are guessed from the text; a test uses one flat form whose values happen to survive.", "anchors": ["forms/xfa/xfa_datasets_translator.go:ParseXFADatasets", "forms/xfa/xfa_datasets_translator.go:DatasetsToXFA", "forms/xfa/xfa_datasets_translator.go:parseFieldValue", "forms/xfa/xfa_datasets_translator.go:encodeFieldGroup"]}
{"id": "C85", "title": "Form schemas survive the template", "statement": "FormToXFA followed by ParseXFAForm gives back the form schema: the title, every question in order with its name, label, description, type, options, default, flags, validation, layout and page, and every rule.", "quantifier": "all schemas, all map iteration orders, all white space inserted by the encoder", "why_tests_cant": "Every combination of attributes, options, validations and rules matters; the test compares names and labels of one small schema.", "anchors": ["forms/xfa/xfa_form_translator.go:FormToXFA", "forms/xfa/xfa_form_translator.go:ParseXFAForm", "forms/xfa/xfa_form_translator.go:encodeQuestionAsField", "forms/xfa/xfa_form_translator.go:parseXFAStructure"]}
{"id": "C86", "title": "Every field of a template becomes a question", "statement": "ParseXFAForm returns one question per field element, in document order, with the field's name, whether it lies in a subform or not; question IDs are valid identifiers and unique; scripts of events become actions of rules.", "quantifier": "all templates, all nestings of subforms, all field names", "why_tests_cant": "Nesting and names are arbitrary; a flat template with distinct simple names shows none of the failures.", "anchors": ["forms/xfa/xfa_form_translator.go:ParseXFAForm", "forms/xfa/xfa_form_translator.go:parseXFAStructure", "forms/xfa/xfa_form_translator.go:sanitizeFieldIDWithIndex", "forms/xfa/xfa_form_translator.go:convertXFAEventToRule"]}
{"id": "C87", "title": "The unified forms interface finds the same form as Detect announces", "statement": "forms.Detect, forms.Extract and the type-specific functions agree on every file: Detect returns exactly the type of the form Extract returns, an error exactly when Extract returns one; a file whose AcroForm has a field is an AcroForm even if it also has XFA streams; otherwise a non-empty template makes an XFA form; otherwise both return an error; the schema and data of the form are those ExtractAcroForm and ExtractXFA return.", "quantifier": "all files, passwords, outcomes of the decompressors, the XML reader and the encryption package", "why_tests_cant": "Every byte sequence is an input and the outcome depends on three readers that can each fail in many ways; a test fixes a handful of files.", "anchors": ["forms/forms.go: Detect, Extract, ExtractXFA, AcroFormWrapper, XFAFormWrapper", "forms/acroform/extract.go: ExtractAcroForm"]}
{"id": "C88", "title": "A form document built by the library is extracted as the same form", "statement": "A document built from an XFA template made from a form schema and a datasets stream made from form data is extracted by forms.Extract as an XFA form with the title, the questions (as far as a template keeps them) and the values of the fields outside groups; a document with a form built field by field is extracted as an AcroForm with those fields.", "quantifier": "all schemas, data, orders of map iteration, indentation added by the encoder, document contents within the stated conditions", "why_tests_cant": "Round trips through five packages must hold for every schema, every data and every order in which Go delivers map entries.", "anchors": ["forms/forms.go: Extract", "core/write/xfa_builder.go: BuildFromXFA", "forms/xfa/xfa_form_translator.go", "forms/xfa/xfa_datasets_translator.go", "forms/acroform/writer.go"]}
{"id": "C89", "title": "Filling an XFA form replaces the data stream and the file stays readable", "statement": "Form.Fill on an XFA form returns the file with the datasets stream replaced by the updated data, and the result can be extracted again with the new values.", "quantifier": "all files with a findable datasets stream, all form data", "why_tests_cant": "The offsets of the file move with the length of every value; only a few lengths are tested.", "anchors": ["forms/forms.go: XFAFormWrapper.Fill", "forms/xfa/xfa.go: UpdateXFAInPDF", "forms/xfa/xfa_utils.go: ReplaceStreamInPDF"]}
{"id": "C90", "title": "Actions of form fields", "statement": "AddActionToField makes the given action (URI, JavaScript, GoTo, SubmitForm, ResetForm) the field's action, replacing one that was there, changes no other object, and fails exactly when the field has no dictionary or the action is incomplete; AddMouseAction adds the action of one event and keeps those of the others.", "quantifier": "every writer, field object, action, event and text", "why_tests_cant": "The texts, the field's other entries and the history of earlier actions are unbounded; the result depends on every earlier call.", "anchors": ["forms/acroform/actions.go: AddActionToField, AddMouseAction, escapeActionString"]}
{"id": "C91", "title": "Appearances of form fields", "statement": "CreateTextAppearance, CreateButtonAppearance and CreateCheckboxAppearance store a form XObject of the given size which draws the given text or state with fonts the document has, and AddAppearanceToField makes the field show the last appearance added to it, changing nothing else.", "quantifier": "every text, size, font name, field object and sequence of additions", "why_tests_cant": "Texts and field contents are unbounded.", "anchors": ["forms/acroform/appearance.go: CreateTextAppearance, CreateButtonAppearance, CreateCheckboxAppearance, AddAppearanceToField"]}
{"id": "C92", "title": "The form builder", "statement": "The document written by SimplePDFBuilder.Bytes after FormBuilder.BuildForm has the built form in its catalog, and FillFormFromSchema and ExtractAndFill do not fill in data that the validation rejects.", "quantifier": "every list of field definitions, builder, and data", "why_tests_cant": "The number of fields, pages and other objects is unbounded.", "anchors": ["forms/acroform/integration.go: BuildForm, FillFormFromSchema, ExtractAndFill", "core/write/page.go: SimplePDFBuilder.Bytes"]}
{"id": "C93", "title": "The comparison report", "statement": "GenerateReport says the documents are identical exactly when the comparison found no difference, states the number of differences otherwise, and has a line for every difference found: metadata fields, page counts, each difference of each page under that page's heading, bookmarks, and every form field added, removed or changed.", "quantifier": "every pair of extracted documents, options and map orders", "why_tests_cant": "Documents have unboundedly many pages, elements and fields; a missing line is only seen for the combination that lacks it.", "anchors": ["core/compare/report.go: GenerateReport", "core/compare/compare.go: ComparePDFsWithOptions, compareSinglePage"]}
{"id": "C94", "title": "The warning collector", "statement": "After every history of Add, Clear, Enable and Disable a WarningCollector holds exactly the warnings added while enabled since the last Clear, in order; Count, HasWarnings and the filters agree with it; a slice returned by Warnings does not change afterwards; two collectors never disturb each other.", "quantifier": "every history of calls, on one or two collectors, and every growth policy of append", "why_tests_cant": "Histories are unbounded, and sharing of the backing array shows only for particular sequences and capacities.", "anchors": ["types/warnings.go: WarningCollector"]}
{"id": "C95", "title": "Error codes and causes", "statement": "errors.Is(err, target) holds exactly when some error in the chain of causes is the target or a PDFError of its code; the codes are distinct; the helpers GetErrorCode, IsNotFound, IsEncryptionError and IsValidationError agree with errors.Is; WithContext changes neither code, text nor cause.", "quantifier": "every chain of errors, however long and however wrapped", "why_tests_cant": "Chains have unbounded length.", "anchors": ["types/errors.go: PDFError, Is, Unwrap, WithContext, IsNotFound, IsEncryptionError, IsValidationError"]}
{"id": "C96", "title": "Connection sets survive writing and reading", "statement": "A connection set written with ConnectionSetToXFA and parsed with ParseXFAConnectionSet gives the same connections in the same order, each with its name, type, data description and all its properties, whatever the order in which the property maps are traversed.", "quantifier": "every connection set, every order of its maps, every indentation of the XML", "why_tests_cant": "Sets, property maps and map orders are unbounded; a clash of names shows only for particular keys in a particular order.", "anchors": ["forms/xfa/xfa_connection_translator.go: ConnectionSetToXFA, ParseXFAConnectionSet, encodeConnection, encodeDataDescription", "types/xfa_data_types.go: XFAConnection"]}
{"id": "C97", "title": "Locale sets survive writing and reading", "statement": "LocaleSetToXFA never fails, and what it writes is parsed by ParseXFALocaleSet to the same locale set: default, locales in order, calendars with their holidays, currencies, patterns and text settings.", "quantifier": "every locale set and every indentation of the XML", "why_tests_cant": "Numbers of locales and holidays are unbounded; a holiday is lost only for particular texts.", "anchors": ["forms/xfa/xfa_locale_translator.go: LocaleSetToXFA, ParseXFALocaleSet", "types/xfa_data_types.go: XFALocaleSet"]}
{"id": "C98", "title": "Stylesheets survive writing and reading", "statement": "ParseXFAStylesheet never panics, and a stylesheet written with StylesheetToXFA is parsed to the same styles in the same order, with fonts, borders, margins, padding, positions, sizes and all other properties, with their types.", "quantifier": "every sequence of XML tokens; every stylesheet, every order of its maps, every indentation", "why_tests_cant": "The loop keeps state between elements and asserts types: only some orders of elements could make it panic; values change type only for particular texts.", "anchors": ["forms/xfa/xfa_stylesheet_translator.go: StylesheetToXFA, ParseXFAStylesheet, parseStyleValue", "types/xfa_data_types.go: XFAStyle"]}
{"id": "C99", "title": "Configurations survive writing and reading", "statement": "ParseXFAConfig never panics, and a configuration written with ConfigToXFA is parsed to the same configuration.", "quantifier": "every sequence of XML tokens; every configuration, every order of its properties, every indentation", "why_tests_cant": "Settings are optional and combine freely; the reader's current section carries over between elements.", "anchors": ["forms/xfa/xfa_config_translator.go: ConfigToXFA, ParseXFAConfig", "types/xfa_data_types.go: XFAConfig"]}
{"id": "C100", "title": "PDFStream is a cursor over the file", "statement": "For every byte slice and every sequence of Seek, Tell, Read, ReadByte and Peek calls, each answer is that of a position in the file: Seek clamps to 0..len and returns the clamped position, Read returns the bytes from the position on (fewer at the end, EOF behind it) and advances by what it returned, Peek does not move; reading in pieces until the end yields exactly the file.", "quantifier": "all byte slices, all call sequences, all arguments (whence values included)", "why_tests_cant": "a cursor bug shows only after particular sequences of seeks and reads and at particular boundaries; a test tries a handful of sequences", "anchors": ["forms/xfa/stream.go: NewPDFStream, Seek, Tell, Read, ReadByte, Peek"]}
{"id": "C101", "title": "ReadObjectFromXRef reads the object at its offset", "statement": "Given the offset at which \"num gen obj\" stands in a file, ReadObjectFromXRef returns that object (header, body, endobj); for an offset outside the file it returns an error; it always returns and never panics.", "quantifier": "all files, object numbers, generations and offsets, all decryption functions", "why_tests_cant": "whether an object is found depends on the bytes around its offset; the repository's tests never call it with a file in which the answer is known", "anchors": ["forms/xfa/stream.go: ReadObjectFromXRef, readObjectHeader, findObjectHeaderByRegex, parseDictionaryFromStream, readNameObject, readPDFObject"]}
{"id": "C102", "title": "ParseXFAFields returns the fields of a template", "statement": "For every XFA template, ParseXFAFields returns one form field per field element in document order, carrying its name (a generated one if it has none), a valid identifier, its kind, required and read-only flags, trimmed default value, layout attributes and label; whatever the document, every returned field has a non-empty name, a valid identifier and a known kind; identifiers are distinct for distinct names, and nested fields and prefixed elements count too.", "quantifier": "all token sequences of a document; all templates of fields standing side by side with arbitrary other elements", "why_tests_cant": "the reader is a state machine with nine flags and buffers over an unbounded token sequence; a test fixes one sequence", "anchors": ["core/parse/xfa_parser.go: ParseXFAFields, mapXFATypeToFieldType, sanitizeFieldID"]}
{"id": "C103", "title": "GetFieldAppearance returns the field's drawing", "statement": "For every document and every field, GetFieldAppearance returns the uncompressed data of the stream the field names as its normal appearance (for a field with several states, the one of its state), and an error if there is none; it never panics.", "quantifier": "all object readers, field texts, appearance objects and stream data; all documents the writer produces with an appearance made by AppearanceBuilder", "why_tests_cant": "whether the pattern finds the data depends on every byte of it; a test fixes one drawing", "anchors": ["forms/acroform/flatten.go: GetFieldAppearance", "forms/acroform/appearance.go: AddAppearanceToField, CreateTextAppearance"]}
{"id": "C104", "title": "XFA can be read without a cross-reference table", "statement": "For every document that is not encrypted, whose cross-reference table is missing and whose objects stand at the beginning of lines, reading its XFA streams gives each stream the form names with exactly its data; for every document, reading never changes the caller's bytes, never loses data and never panics.", "quantifier": "all documents, object numbers, streams and decryptors; all arrays behind the caller's slice", "why_tests_cant": "the search windows, the aliasing of the caller's array and the guesses about the data depend on every byte of the document; a test fixes one document and does not look at the array behind it", "anchors": ["forms/xfa/xfa_utils.go: findObjectBoundaries, findAndDecryptAcroForm, decryptInChunks, extractGenerationNumber, extractStreamFromPDF", "forms/xfa/xfa.go: ExtractAllXFAStreams, extractStreamDataFromObject"]}
{"id": "C105", "title": "The resources of a page are its fonts and images", "statement": "For every page, the fonts reported are exactly those its resources name, each with the name, family, subtype, encoding and embedding its objects give, and the images are exactly the external objects that are images, with their sizes; pages of the tree come in order, each with its resources and annotations.", "quantifier": "all resource dictionaries, object readers, font and image objects, page trees", "why_tests_cant": "the patterns that find names and values depend on every byte of the dictionaries; a test fixes one page", "anchors": ["content/extract/resources.go: extractResources, extractFontsDict, extractFontInfo, extractXObjectsDict, extractXObjectInfo", "content/extract/pages.go: extractPage, ExtractPages"]}
{"id": "C106", "title": "Filling a form writes every value given, for fields in object streams and fields that are objects of their own", "statement": "FillFormFields on a document whose form fields are in an object stream rewrites that stream with, for every field named in the data, its new value (the last one given), leaves all other objects of the stream and all bytes outside it as they are, ignores names the form does not have, and never succeeds with an empty document; for a field that is an object of its own it replaces only the value in that object.  Filling several fields works like filling each of them.", "quantifier": "all documents with conforming object streams, all forms, all form data (any number of fields, repeated and unknown names), all compression functions and map orders", "why_tests_cant": "The claim ranges over all files, forms, values and iteration orders; tests fill a few fields of a few documents.", "anchors": ["forms/acroform/fill_streams.go FillFormFieldsWithStreams", "forms/acroform/stream_rebuild.go RebuildObjectStream", "forms/acroform/stream_finder.go findStreamForObject", "forms/acroform/replace.go FillFieldValue"]}
{"id": "C107", "title": "Encryption dictionaries of other producers are read as written, and their user password opens the document", "statement": "For a file whose trailer names an encryption dictionary of the standard security handler (versions 1 to 4, strings in hexadecimal), reading the dictionary gives exactly the version, revision, key length (in bytes), permissions, O, U and metadata flag written there and the first file identifier; a missing key length means what the standard says, permissions may be written signed or unsigned; and DecryptPDF with the user password of a conforming document succeeds with the key of ISO 32000-1 algorithm 2.", "quantifier": "all such dictionaries (all field values), all positions in the file, all texts around them, all passwords and identifiers", "why_tests_cant": "The claim ranges over all field values, keys and surrounding file contents; tests read a few sample files.", "anchors": ["core/encrypt/parser.go ParseEncryptionDictionary", "core/encrypt/key_derivation.go ExtractFileID", "core/encrypt/decrypt.go DecryptPDF", "core/encrypt/key_derivation.go DeriveEncryptionKey"]}
{"id": "C108", "title": "The strings stored for AES-256 encryption are determined by password, identifier and salts and are those of the standard", "statement": "SetupAES256Encryption stores U = validation salt, sealed hash of user password and salt, key salt, and O likewise with the owner password and U; the sealing key is SHA-256 iterated 65 times; U and O have 48 bytes.  UE and OE have 32 bytes and U passes the password check of ISO 32000-2, so other readers open the document.", "quantifier": "all passwords, identifiers, permissions and random values", "why_tests_cant": "The claim ranges over all passwords and random values; tests round-trip a few passwords through the same library.", "anchors": ["core/write/encryption_v5.go SetupAES256Encryption", "core/encrypt/key_derivation.go DeriveEncryptionKeyV5"]}
{"id": "C109", "title": "The pieces of a byte-perfect document are parts of the file that fit together", "statement": "Every object of every revision of a document parsed in byte-perfect mode is the part of the file between its offsets, from its header to the first endobj, before the end-of-file marker of its revision; RevisionBytes never fails and gives the part of the file from the first object or cross-reference section of the revision to the end of its end-of-file marker; objects of a revision lie after the revision before it and the bytes of two revisions do not overlap; header and revisions of a document written by this library together are the file; the header tells the version.", "quantifier": "all files, all map orders; for written documents all writers (classic table, no object streams, no encryption, texts without the reader's keywords)", "why_tests_cant": "The claim ranges over all files, with any number of revisions in any layout; tests parse a few files.", "anchors": ["core/parse/document_parser.go ParsePDFDocument", "core/parse/document_parser.go ParsePDFHeader", "core/parse/document_parser.go ParseRawObject", "core/parse/document.go RevisionBytes"]}
{"id": "C110", "title": "Cross-reference section and trailer keep their bytes, and the trailer its values", "statement": "For every file and every offset at which a classic cross-reference section stands, its raw bytes, the raw bytes of the trailer and the keyword startxref follow each other without a gap, and the trailer offset is where the raw bytes end; for a document written by this library the trailer data tell the size, root, and information dictionary that were set, and no previous section.  No offset makes the reader panic.", "quantifier": "all files and offsets; for the values all writers (classic table, no object streams, no encryption)", "why_tests_cant": "The claim ranges over all files and offsets; tests look at a few trailers.", "anchors": ["core/parse/document_parser.go ParseTrailerDataRaw", "core/parse/document_parser.go parseTraditionalXRefRaw", "core/parse/document.go XRefData.Bytes"]}
{"id": "C111", "title": "Page operations crash only on page trees that are too deep", "statement": "Rotating, deleting, inserting, extracting, splitting and merging pages never crash the process, whatever the objects of the document contain and whatever page numbers are asked for, except when the arguments are acceptable and the page tree goes down more levels than the stack has room for; a circular page tree is always such a tree.", "quantifier": "all documents (any texts for objects), all page numbers, angles, ranges, stack depths", "why_tests_cant": "It ranges over every malformed document; tests try a handful of well-formed ones, and stack exhaustion kills the test process.", "anchors": ["core/manipulate/rotation.go RotatePage", "core/manipulate/rotation.go RotateAllPages", "core/manipulate/deletion.go DeletePage", "core/manipulate/deletion.go DeletePages", "core/manipulate/insertion.go InsertPage", "core/manipulate/extraction.go ExtractPages", "core/manipulate/splitting.go SplitPDF", "core/manipulate/merging.go MergePDFs", "core/manipulate/manipulate.go NewPDFManipulator"]}
{"id": "C112", "title": "Bookmark, form, page content and XFA readers crash only on too deep or circular structure", "statement": "Reading bookmarks, form fields, page contents and XFA streams never crashes the process, whatever the objects contain, except when the chain of items, fields or page nodes is longer than the stack has room for (a circle always is), and for XFA when a /Length entry is near the largest integer.", "quantifier": "all documents (any texts for objects), all stack depths", "why_tests_cant": "It ranges over every malformed document; stack exhaustion cannot be caught by a test.", "anchors": ["content/extract/bookmarks.go ExtractBookmarks", "content/extract/pages.go extractPagesFromTree", "forms/acroform/parser.go ParseAcroForm", "forms/acroform/parser.go parseField", "forms/xfa/xfa.go ExtractAllXFAStreams"]}
{"id": "C113", "title": "The field tree of a form is read as the file has it", "statement": "For every form whose fields are dictionaries with any entries in any order and any white space, the reader returns every field with the object number, generation, type, name, tool tip, flags, value, default value, maximum length, options and rectangle of its entries, and its kids in order, without the ones that are not in the file; the form says it has XFA exactly when it has such an entry.", "quantifier": "all trees of field dictionaries, all layouts of the dictionaries, all texts before and after them", "why_tests_cant": "Tests read a few fixed forms; the claim is for every tree, every order of entries and every layout.", "anchors": ["forms/acroform/parser.go parseField", "forms/acroform/parser.go parseAcroFormDict", "forms/acroform/parser.go parseAcroFormFromBytes", "forms/acroform/parser.go parseArray", "forms/acroform/parser.go parseOptions"]}
{"id": "C114", "title": "An XFA template gives one question per field and one rule per event", "statement": "For every XFA template without nested subforms, whatever the fields contain, the schema has one question for each field, in document order, with the field's name, kind of answer, required, read-only and hidden flags, page and layout; and one rule for each event, in order and numbered from 1, naming the field and of the kind its activity stands for.", "quantifier": "all templates (fields and subforms of fields with arbitrary contents, attributes given once)", "why_tests_cant": "Tests translate a few sample templates; the claim is for all contents of fields in all orders.", "anchors": ["forms/xfa/xfa_form_translator.go ParseXFAForm", "forms/xfa/xfa_form_translator.go parseXFAStructure", "forms/xfa/xfa_form_translator.go convertXFAFieldToQuestion", "forms/xfa/xfa_form_translator.go convertXFAEventToRule"]}
{"id": "C115", "title": "XFA configurations, locale sets and connection sets say what their documents say", "statement": "For every XML document, whoever wrote it: ParseXFALocaleSet returns one locale for each locale element, in order, with exactly the code, name, calendar, currency, patterns and text settings that the attributes of its sub-elements give (the last attribute of a name counts, a number that is not one counts for nothing, an absent section is absent); ParseXFAConnectionSet likewise for connections and their data descriptions; ParseXFAConfig likewise for present (with pdf and interactive), submit, destination and acrobat. In the other direction, the document that LocaleSetToXFA, ConnectionSetToXFA and ConfigToXFA write says, under the same names, everything the value given holds, the tests of validate and the settings of common and output included. (The reader ignores the attributes of validate, common and output.)", "quantifier": "all sequences of XML tokens, and all locale sets, connection sets and configurations", "why_tests_cant": "documents of other programs have any attributes, in any order, repeated, nested and malformed in any way; tests read the few documents the library itself wrote", "anchors": ["forms/xfa/xfa_config_translator.go ParseXFAConfig", "forms/xfa/xfa_config_translator.go ConfigToXFA", "forms/xfa/xfa_locale_translator.go ParseXFALocaleSet", "forms/xfa/xfa_locale_translator.go LocaleSetToXFA", "forms/xfa/xfa_connection_translator.go ParseXFAConnectionSet", "forms/xfa/xfa_connection_translator.go ConnectionSetToXFA"]}
{"id": "C116", "title": "Where and how a watermark is drawn", "statement": "AddWatermark draws the text or image so that its middle is at the position asked for, or at the page's middle when none is given, turned about it by the angle asked for, in the size, the colour and the opacity asked for, with the documented defaults for options left out; AddTextWatermark does so in the page's middle.", "quantifier": "all page sizes, options (texts, sizes, angles, colours, opacities, positions), pages and writers, with exact numbers", "why_tests_cant": "the geometry is a composition of transformations over all sizes and angles; tests look for substrings of the content stream", "anchors": ["core/write/watermark.go: DefaultWatermarkOptions, AddWatermark, AddTextWatermark"]}
{"id": "C117", "title": "Comparing the other way round", "statement": "Comparing document B with A reports the mirror image of comparing A with B: the same verdict and number of differences, the same metadata, page count and bookmark findings, and page by page and for the form the same modifications turned round, with what was added and what was removed exchanged.", "quantifier": "all pairs of extracted documents, all options, all orders of map iteration", "why_tests_cant": "The matching is greedy in the order of the first document with tolerances that are not transitive; that its outcome does not depend on which document comes first has to hold for all pairs of lists.", "anchors": ["core/compare/compare.go: ComparePDFsWithOptions, comparePages, compareImagesWithBinary, compareForms, compareMetadata", "core/compare/text_diff.go: compareText, wordLevelDiff, charLevelDiff", "core/compare/myers_diff.go: myersDiff, findLCSMatches"]}
{"id": "C118", "title": "Metadata from named fields", "statement": "NewMetadataFromFields puts the value given under each standard name, in whatever capitals (and with or without the underscore in the names of the two dates), in the field of that name, every other pair unchanged among the custom fields, and nothing else anywhere, whatever order the map is iterated in.", "quantifier": "all maps of names to values, all iteration orders", "why_tests_cant": "Go iterates over the map in a random order; the record must not depend on it for any map.", "anchors": ["core/write/metadata.go: NewMetadataFromFields"]}
{"id": "C119", "title": "The byte-perfect mode of the parse API", "statement": "Opening a file with BytePerfect keeps every byte (Bytes and Raw return the file). HasObject, Objects, ObjectCount, GetRawObject and GetObject speak of the same objects: one is there exactly if some revision holds it, it is listed once, and its raw object is the one of the last revision that holds it; GetObject reads at the same place, with the key the password opened, and gives the same text as Content up to white space at the end. The mode shows the same objects and as many revisions as the standard mode.", "quantifier": "all files, all revisions, all object numbers, all orders of the object map, all decryption functions", "why_tests_cant": "It ranges over every file with any number of revisions and tables; tests compare a few files.", "anchors": ["core/parse/api.go OpenWithOptions", "core/parse/api.go parseBytePerfect", "core/parse/api.go GetObject", "core/parse/api.go GetRawObject", "core/parse/api.go RevisionCount", "core/parse/document_parser.go ParsePDFDocument", "core/parse/document.go Content"]}
