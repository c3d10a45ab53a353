{"id": "C01", "title": "Buffering is transparent", "statement": "After Buffer.reset(r), every byte returned by current/next/prev is the file byte at the logical position (None outside the file), whatever the block size, as long as the cursor has not visited both a position before r and a position past the block loaded by the reset. Outside that discipline the buffer returns wrong bytes.", "quantifier": "all files, block sizes > 0, reset offsets and all finite sequences of cursor operations", "why_tests_cant": "The guarantee is about unbounded cursor histories crossing arbitrary block boundaries.", "anchors": ["pdfreader/buffer.py:Buffer"]}
{"id": "C02", "title": "get_state/set_state is an exact undo", "statement": "Restoring a state obtained with get_state makes every later read behave as if the operations between the two calls had never happened.", "quantifier": "all files, all operation sequences between save and restore, all later sequences", "why_tests_cant": "Backtracking correctness quantifies over what happened in between and after.", "anchors": ["pdfreader/buffer.py:get_state,set_state", "pdfreader/parsers/base.py:numeric_or_indirect_reference"]}
{"id": "C03", "title": "Object parsing terminates", "statement": "Parsing any PDF object (object()) from any byte sequence at any position either returns a value or raises; it never loops, and on success of a value it consumed at least one byte.", "quantifier": "all byte sequences and all positions", "why_tests_cant": "Non-termination can only be excluded for every input by a measure argument.", "anchors": ["pdfreader/parsers/base.py:BasicTypesParser"]}
{"id": "C04", "title": "Integer literals are exact", "statement": "Parsing the decimal text of any integer, with optional sign and leading zeros, followed by any non-digit non-point byte, returns exactly that integer and consumes exactly the literal.", "quantifier": "all integers, all leading-zero paddings, all continuations", "why_tests_cant": "Unbounded integers and continuations.", "anchors": ["pdfreader/parsers/base.py:numeric"]}
{"id": "C05", "title": "Real literals are exact", "statement": "Parsing [sign]digits.digits returns the Decimal with exactly those digits and exponent. (True for positive literals of any length and for negative ones of at most 28 significant digits; beyond that the code silently rounds.)", "quantifier": "all digit strings", "why_tests_cant": "Precision loss only shows for long literals.", "anchors": ["pdfreader/parsers/base.py:numeric"]}
{"id": "C06", "title": "Names round-trip", "statement": "For every sequence of latin-1 characters, writing it as a PDF name with every irregular byte and '#' as #xx and parsing it back yields the same name and stops at the delimiter.", "quantifier": "all names and continuations", "why_tests_cant": "Escaping bugs hide in single byte values and adjacency.", "anchors": ["pdfreader/parsers/base.py:name"]}
{"id": "C07", "title": "Literal strings round-trip", "statement": "For every byte string, escaping it with the library's own escape table and parsing '('+escaped+')' returns the original bytes; balanced parentheses may also be left unescaped; octal escapes of 1-3 digits denote their byte. Every text after an opening parenthesis is either read as a string or, if no parenthesis closes it, refused with TypeError. Strings are read as ISO 32000-1 says except that an end of line CR or CR LF is kept (not turned into LF), and that the backslash of an unknown escape and an octal code above 255 are kept.", "quantifier": "all byte strings, all texts of strings, all continuations", "why_tests_cant": "Nesting depth and escape adjacency are unbounded.", "anchors": ["pdfreader/parsers/base.py:string", "pdfreader/constants.py:STRING_ESCAPED,ESCAPED_CHARS", "pdfreader/utils.py:pdf_escape_string"]}
{"id": "C08", "title": "Hexadecimal strings round-trip", "statement": "Any sequence of hex digits in any case with whitespace/comments interleaved, followed by '>', (no comment directly after '<': such a one is rejected) parses to the upper-cased digits, padded with one 0 when odd; decoding that string gives back the encoded bytes.", "quantifier": "all byte strings, letter cases and interleavings", "why_tests_cant": "Interleavings are unbounded.", "anchors": ["pdfreader/parsers/base.py:hexstring", "pdfreader/types/native.py:HexString"]}
{"id": "C09", "title": "Composite objects round-trip", "statement": "For every PDF value built from null, booleans, numbers, names, strings, hex strings, references, arrays and dictionaries (any nesting), any standard textual form of it (any whitespace/comments between tokens) parses back to the same value and consumes exactly that text.", "quantifier": "all values of all sizes and depths, all layouts of whitespace and comments, all continuations", "why_tests_cant": "Structural induction over unbounded nesting.", "anchors": ["pdfreader/parsers/base.py:object,array,dictionary,numeric_or_indirect_reference,maybe_spaces_or_comments"]}
{"id": "C10", "title": "Dictionary keys: the last duplicate wins", "statement": "Parsing a dictionary yields exactly one value per key, the value of the last occurrence in the text.", "quantifier": "all dictionaries with any duplicates", "why_tests_cant": "All orders and multiplicities of duplicate keys.", "anchors": ["pdfreader/parsers/base.py:dictionary"]}
{"id": "C11", "title": "Streams with a correct Length are returned verbatim", "statement": "If Length equals the number of data bytes, the stream's raw data is exactly those bytes, whatever they contain (including 'endstream'), for every EOL convention after 'stream' and every whitespace before 'endstream'.", "quantifier": "all data byte strings, EOL variants, continuations", "why_tests_cant": "Adversarial data contents.", "anchors": ["pdfreader/parsers/base.py:_stream,stream"]}
{"id": "C12", "title": "Streams with a wrong Length are recovered", "statement": "If Length is wrong, the data up to the first 'endstream' minus trailing EOL bytes is returned. (Fails with TypeError instead when Length runs past the end of the file, and data that really ends with EOL bytes loses them.)", "quantifier": "all data and all wrong lengths", "why_tests_cant": "Relation between a wrong length and the position of the end of file.", "anchors": ["pdfreader/parsers/base.py:_stream"]}
{"id": "C13", "title": "Indirect objects round-trip", "statement": "'n g obj <value> endobj' parses to object (n,g,value) for every value and layout; for streams a missing endobj is tolerated and parsing resumes right after endstream's trailing spaces, provided at least six more bytes follow (at the end of the file it is a TypeError).", "quantifier": "all numbers, generations, values, layouts", "why_tests_cant": "Unbounded values.", "anchors": ["pdfreader/parsers/document.py:indirect_object"]}
{"id": "C14", "title": "Integers and references are told apart", "statement": "In a sequence of integers, 'n g R' is read as a reference and every other integer as an integer, whatever lookahead was needed; the lookahead is fully undone.", "quantifier": "all integer/reference sequences", "why_tests_cant": "Backtracking interacts with everything that follows.", "anchors": ["pdfreader/parsers/base.py:numeric_or_indirect_reference"]}
{"id": "C15", "title": "Parse failures are confined to known exceptions", "statement": "Parsing any bytes as an object raises nothing but ParserException, TypeError (input exhausted) or KeyError (stream without Length). In particular not every malformed input yields ParserException.", "quantifier": "all byte sequences", "why_tests_cant": "Absence of other exceptions for every input.", "anchors": ["pdfreader/parsers/base.py"]}
{"id": "C16", "title": "Header lookup", "statement": "pdf_header returns (version, offset) only if a %PDF-d.d or %IPS-Adobe-d.d PDF-d.d marker with that version stands at that offset, and it finds a marker whenever one starts a line and ends within the first 1024 bytes (files of at least 22 bytes).", "quantifier": "all files", "why_tests_cant": "Window alignment for every position.", "anchors": ["pdfreader/parsers/document.py:pdf_header"]}
{"id": "C17", "title": "startxref lookup", "statement": "xref_offset returns the number following the last 'startxref' that precedes the last '%%EOF' found in the final 1023 bytes; without such markers a ParserException is raised. Markers at the very first byte of the file are not seen.", "quantifier": "all files", "why_tests_cant": "Backward scanning over arbitrary content.", "anchors": ["pdfreader/parsers/document.py:seek_eof,xref_offset"]}
{"id": "C18", "title": "Cross-reference tables round-trip", "statement": "A textual xref section with any number of subsections and entries parses to exactly the listed in-use and free entries, each under its object number, later in-use (free) entries for the same number replacing earlier in-use (free) ones. In-use and free entries are kept apart: an object listed in use and later freed in the same table stays in use.", "quantifier": "all tables", "why_tests_cant": "Unbounded tables and duplicates.", "anchors": ["pdfreader/parsers/document.py:direct_xref,xref_range,xref_entry", "pdfreader/types/xref.py:XRef"]}
{"id": "C19", "title": "Following /Prev terminates", "statement": "Reading the trailer collects the sections linked by /Prev, newest first, and terminates whenever every /Prev on the way leads to an earlier offset, whatever else the file contains; a /Prev cycle of tables is followed for ever.", "quantifier": "all files", "why_tests_cant": "Non-termination is not observable by testing.", "anchors": ["pdfreader/parsers/document.py:pdf_trailer"]}
{"id": "C20", "title": "Cross-reference streams decode", "statement": "An xref stream with fields W=[w1 w2 w3] (w1>0) and one Index range (or none, then starting at 0) gives object number start+i, for every row i of type 1, that row's offset and generation, and lists no other object in use.", "quantifier": "all field widths, all entry lists", "why_tests_cant": "All widths and row counts.", "anchors": ["pdfreader/types/xref.py:XRef.from_stream"]}
{"id": "C21", "title": "Xref-stream defaults and multiple ranges", "statement": "An xref stream whose type column has width 0 lists no object in use (the specification says type 1 is the default), and only the first pair of a multi-range Index is used: later rows are numbered consecutively from the first start.", "quantifier": "all xref streams", "why_tests_cant": "Configuration space.", "anchors": ["pdfreader/types/xref.py:XRef.from_stream"]}
{"id": "C22", "title": "Compressed objects are reachable through the xref", "statement": "An object listed as compressed in an xref stream is never looked for in that object stream through the cross-reference: looking it up behaves as if the entry were absent, so an older revision listed in use is returned instead of the newer compressed one.", "quantifier": "all xref streams and files", "why_tests_cant": "A dead branch cannot be shown dead by tests.", "anchors": ["pdfreader/types/xref.py:CompressedObjEntry,XRef.add_entry", "pdfreader/parsers/document.py:locate_object_by_xref"]}
{"id": "C23", "title": "The first registration of an object wins", "statement": "Over any history of registrations, an object id keeps the value of its first registration (unless forced), registrations never disappear and other ids are unaffected.", "quantifier": "all registration histories including object streams", "why_tests_cant": "Histories are unbounded.", "anchors": ["pdfreader/registry.py:Registry.register"]}
{"id": "C24", "title": "Object streams are unpacked faithfully", "statement": "Registering an object stream built from any list of (number, value) makes every listed number available with generation 0 and its value (first wins).", "quantifier": "all lists of objects", "why_tests_cant": "Offsets arithmetic over all sizes.", "anchors": ["pdfreader/parsers/objstm.py", "pdfreader/registry.py:register_object_stream"]}
{"id": "C25", "title": "Object lookup is stable", "statement": "Whenever locate_object(n,g) returns a value, that is the value it leaves registered, and every later successful lookup of the same id in the session returns the same value, whatever other lookups happen; an id that no section leads to is the first object of that id in the body of the file, and null if there is none.", "quantifier": "all lookup histories, all files", "why_tests_cant": "Caching vs. history.", "anchors": ["pdfreader/parsers/document.py:locate_object,locate_object_by_xref,next_brute_force_object"]}
{"id": "C26", "title": "The newest revision wins", "statement": "With incremental updates, an object listed in several xref sections is taken from the newest section that lists it in use with the requested generation, sections listing it at an offset where no number stands being passed over.", "quantifier": "all chains of xref sections", "why_tests_cant": "All chain lengths and listings.", "anchors": ["pdfreader/parsers/document.py:locate_object_by_xref,pdf_trailer"]}
{"id": "C27", "title": "Building resolves references without looping", "statement": "build() of an object returns what it stands for: references followed, arrays element by element, dictionaries and streams typed with their entries kept; this holds for every document whose arrays do not contain themselves, whatever cycles go through dictionaries and streams. A cycle through arrays is followed for ever, so is any dictionary cycle with lazy=False, and a reference to a reference is resolved one step only. With lazy=False, an object from which nothing leads back to itself is returned with every reference at any depth replaced by the object it names, however often objects are shared.", "quantifier": "all object graphs", "why_tests_cant": "Cyclic structures of any shape.", "anchors": ["pdfreader/document.py:build,obj_by_ref", "pdfreader/types/objects.py:ArrayBasedObject"]}
{"id": "C28", "title": "Dictionary objects are stable under reading", "statement": "Reading entries of a dictionary object in any order, any number of times, returns for each key the resolved value of the underlying entry, and never changes keys, membership or other entries.", "quantifier": "all dictionaries and read histories", "why_tests_cant": "Caching vs. history.", "anchors": ["pdfreader/types/objects.py:DictBasedObject"]}
{"id": "C29", "title": "Dictionary objects obey dict laws under update", "statement": "Over any history of reads and changes of a dictionary object: an assignment to a key not read before is seen; but the first value read of a key sticks (later assignments and pop are not seen by d[k]); del d[k] never removes the key, it only forgets the value read (KeyError if none was); pop removes the key from the listing only.", "quantifier": "all update histories", "why_tests_cant": "Interaction of caching with all operations.", "anchors": ["pdfreader/types/objects.py:DictBasedObject"]}
{"id": "C30", "title": "Pages are enumerated in document order", "statement": "pages() yields exactly the leaves of the page tree from left to right, each once, for every tree shape, then ends; the first pages need only the first children of the root, whatever the later ones are. If a child is null (a dangling reference) the enumeration starts over there and never ends.", "quantifier": "all finite page trees", "why_tests_cant": "All tree shapes and depths.", "anchors": ["pdfreader/types/objects.py:PageTreeNode.pages", "pdfreader/document.py:pages"]}
{"id": "C31", "title": "Navigation reaches exactly the existing pages", "statement": "In a document with N pages, navigate(n) for 1<=n<=N, if the page's resources and content can be loaded, makes the n-th page current with an empty canvas and a fresh graphics state; for any other n it raises (PageDoesNotExist beyond N) and changes nothing; next/prev move by one; a viewer is always on an existing page. (Defect, proved: below 1 - so also prev() on page 1 - it raises a plain ValueError instead of the promised PageDoesNotExist.)", "quantifier": "all documents, all navigation histories", "why_tests_cant": "Page cache vs. history.", "anchors": ["pdfreader/viewer/pdfviewer.py:navigate,next,prev"]}
{"id": "C32", "title": "Iterating a viewer visits every remaining page once", "statement": "Whatever was done with the viewer before, iter(viewer) and iter_pages() yield the items (canvas a fresh viewer draws, resp. page) for the current page up to the last page in order, once each, then raise StopIteration for ever. A page that cannot be drawn is not passed: every further call draws it again and raises what that raises.", "quantifier": "all page counts and starting pages", "why_tests_cant": "Any number of pages.", "anchors": ["pdfreader/viewer/pdfviewer.py:CanvasIterator,PagesIterator"]}
{"id": "C33", "title": "Rendering does not depend on history", "statement": "After any history of navigation to existing or missing pages, rendering, and changes the user makes to canvases he got, render() on a page gives the canvas a fresh viewer would give for that page (or fails with the same exception), provided the viewer's own canvas was not changed since navigating there. (Defects, proved: the viewer's canvas object is emptied in place by the next navigation; and after a navigation that failed because an existing page's resources cannot be loaded, render() draws the previous page's content and keeps it as the new page's.)", "quantifier": "all histories of navigate/render/mutate", "why_tests_cant": "Caching vs. history.", "anchors": ["pdfreader/viewer/simple.py:render,after_navigate", "pdfreader/viewer/canvas.py:SimpleCanvas"]}
{"id": "C34", "title": "q/Q restore the graphics state", "statement": "For any balanced content between a q and its Q (nested q/Q of any depth, any operators, XObjects whose content is balanced), the graphics state after Q equals the one before q and the stack is unchanged (a stack that was empty holds the initial state explicitly afterwards); right after q the state is the one before.", "quantifier": "all balanced operator sequences", "why_tests_cant": "Nesting of any depth.", "anchors": ["pdfreader/viewer/graphicsstate.py", "pdfreader/viewer/pdfviewer.py:on_q,on_Q"]}
{"id": "C35", "title": "Unmatched Q does not fail and falls back to the enclosing state", "statement": "Q without a matching q never fails and changes nothing on the canvas but its text; on an empty stack it is a no-op, else the current state is dropped: after balanced content on a fresh page it brings back the initial state. (That it be harmless, i.e. keep the state, is refuted.)", "quantifier": "all operator sequences", "why_tests_cant": "Unbalanced sequences of any shape.", "anchors": ["pdfreader/viewer/graphicsstate.py:restore_state"]}
{"id": "C36", "title": "Do leaves the graphics state unchanged", "statement": "Painting an XObject leaves the caller's graphics state and stack depth unchanged provided the form's content has balanced q/Q, whatever the form sets.", "quantifier": "all forms with balanced content", "why_tests_cant": "Unbounded contents.", "anchors": ["pdfreader/viewer/pdfviewer.py:before_Do,after_Do", "pdfreader/viewer/simple.py:on_Do"]}
{"id": "C37", "title": "Resources are inherited, nearest wins", "statement": "For every page and ancestor chain (and form), a named resource resolves to the entry of the nearest level that defines it; ProcSets are the union; collecting the resources succeeds if every level's entries are dictionaries or lists. A KeyError while reading a page's Resources counts as having none; other exceptions, and Resources that are no dictionary, break the page. (Defect, proved: a cycle of Parent entries makes it run for ever.)", "quantifier": "all chains and resource dictionaries", "why_tests_cant": "All depths and overlaps.", "anchors": ["pdfreader/viewer/resources.py:Resources.from_page"]}
{"id": "C38", "title": "Content streams split into operators and operands", "statement": "Parsing any sequence of operators with operands written with arbitrary separators yields exactly those operators with those operands in order.", "quantifier": "all operator sequences and layouts", "why_tests_cant": "Unbounded programs.", "anchors": ["pdfreader/parsers/content.py"]}
{"id": "C39", "title": "Inline image data is returned verbatim", "statement": "An inline image whose data contains no EI bordered by whitespace yields exactly its dictionary and data, and parsing continues after EI.", "quantifier": "all data strings, all dictionaries", "why_tests_cant": "Adversarial data.", "anchors": ["pdfreader/parsers/inlineimage.py"]}
{"id": "C40", "title": "Text extraction preserves order and content", "statement": "canvas.strings is the concatenation, in content order, of the decoded string operands of every Tj, ' and TJ, each decoded with the font selected by the last Tf in effect (q/Q respected); other operators add nothing. (The double quote operator is not supported: with its three operands it always raises TypeError.)", "quantifier": "all operator sequences, all decoders", "why_tests_cant": "Unbounded programs.", "anchors": ["pdfreader/viewer/simple.py:TextOperatorsMixin"]}
{"id": "C41", "title": "Text in text_content can be parsed back", "statement": "After rendering any content (operators with numbers, booleans, null, plain names, and arrays and dictionaries of them, and shown strings), canvas.text_content parses back, as a content stream, to the same operators in order, with the decoded strings in place of the shown ones - whatever characters those contain. An inline image is put on the canvas with its entries, its filters and all its bytes - in base 85, unless its first filter is an ASCII filter, whose data are kept. (Inline images do not survive parsing back, as the base-85 alphabet is not the one the filter reads, and images without filter get one named None; neither do strings among the operands of operators that show no text, such as /ActualText in a marked-content property list: refuted.)", "quantifier": "all strings", "why_tests_cant": "Escaping of arbitrary strings.", "anchors": ["pdfreader/viewer/simple.py:object_to_string,on_Tj", "pdfreader/utils.py:pdf_escape_string"]}
{"id": "C42", "title": "Unbalanced BT/ET never break rendering", "statement": "For any sequence of BT/ET the viewer never fails, the bracket stack never exceeds one entry and mode is BT exactly between a BT and the next ET.", "quantifier": "all BT/ET sequences", "why_tests_cant": "Sequences are unbounded.", "anchors": ["pdfreader/viewer/simple.py:on_BT,on_ET"]}
{"id": "C43", "title": "ASCIIHexDecode inverts hex encoding", "statement": "Decoding any hex encoding (any case, any whitespace, odd final digit) up to '>' gives the bytes, ignores what follows, and never raises on any input.", "quantifier": "all byte strings and encodings; all inputs for totality", "why_tests_cant": "Unbounded input.", "anchors": ["pdfreader/filters/asciihex.py"]}
{"id": "C44", "title": "ASCII85Decode inverts Ascii85 encoding", "statement": "Decoding the Ascii85 encoding of any bytes, with any whitespace interleaved and ~> at the end, gives the bytes; every input yields bytes, never an exception.", "quantifier": "all byte strings and encodings; all inputs for totality", "why_tests_cant": "Unbounded input; carries across 5-digit groups.", "anchors": ["pdfreader/filters/ascii85.py"]}
{"id": "C45", "title": "RunLengthDecode inverts run-length encoding", "statement": "Decoding any well-formed run-length encoding gives the encoded bytes; bytes after EOD are ignored; a stream truncated before EOD gives b''; no input raises.", "quantifier": "all run sequences; all inputs for totality", "why_tests_cant": "Unbounded input.", "anchors": ["pdfreader/filters/runlength.py"]}
{"id": "C46", "title": "LZWDecode inverts LZW encoding", "statement": "A conforming LZW stream without the final EOD code is decoded to its original bytes if and only if none of its codes refers to the table entry it completes itself; otherwise bytes are lost (none are added and nothing is raised). A conforming stream with the EOD code the standard demands always decodes to b''. Any other data gives bytes or TypeError. (That conforming streams decode to their data is thus refuted.)", "quantifier": "all code sequences", "why_tests_cant": "Dictionary growth and code-width changes over arbitrary sequences.", "anchors": ["pdfreader/filters/lzw.py"]}
{"id": "C47", "title": "Predictors are reversed", "statement": "With a PNG predictor only the tag byte of every row is removed: rows of any filter types come out right if and only if the prediction is zero everywhere, in particular rows of type None; rows of every other type do not in general (refuted). The TIFF predictor is not supported (LZW: b'', Flate: ValueError), and rows whose samples have more than one byte are cut wrongly.", "quantifier": "all row counts, widths, filter types", "why_tests_cant": "All sizes.", "anchors": ["pdfreader/filters/predictors.py"]}
{"id": "C48", "title": "Filter chains are applied in order", "statement": "A stream with a filter array is decoded by applying the filters left to right; no filter means the raw data; an unknown filter raises NotImplementedError; aliases denote the same filter.", "quantifier": "all filter lists and data", "why_tests_cant": "All compositions.", "anchors": ["pdfreader/types/native.py:apply_filter_multi", "pdfreader/filters/__init__.py:apply_filter"]}
{"id": "C49", "title": "CCITT G4 decoding yields whole rows", "statement": "With K = -1 and any Columns >= 1, every data decodes to a whole number of rows of ceil(Columns/8) bytes (padding bits zero) or fails with InvalidData, uncompressed mode included; it never loops, indexes out of range or raises anything else. Decoding a prefix gives a prefix of the rows, and an error in a prefix is an error of the whole. Other parameters (defects, part of the statement): K absent or anything but -1 returns the data undecoded, a missing Columns is a TypeError although its default is 1728, an array of DecodeParms an AttributeError, Columns 0 can raise IndexError.", "quantifier": "all byte strings, widths and flags", "why_tests_cant": "bit-level state machine over all inputs", "anchors": ["pdfreader/filters/ccittfax.py:ccittfaxdecode", "pdfreader/filters/ccittfax.py:CCITTG4Parser"]}
{"id": "C50", "title": "CCITT G4 decoding inverts G4 encoding", "statement": "Every picture of any width and height has a T.6 code (with the mode choice T.6 prescribes), and decoding any T.6 code of a picture, whatever applicable modes and make-up codes the encoder used, with or without byte-aligned rows, ended by EOFB or by zero padding, gives exactly its rows, one bit per pixel, black as 1 iff BlackIs1.", "quantifier": "all pictures and all their codes", "why_tests_cant": "all pictures, all encoders", "anchors": ["pdfreader/filters/ccittfax.py:CCITTG4Parser", "pdfreader/filters/ccittfax.py:CCITTFaxDecoder.output_line"]}
{"id": "C51", "title": "CMap range lookup", "statement": "A range of hexadecimal codes is accepted iff both ends have the same number of digits (AssertionError otherwise) and begin <= end (ValueError otherwise). Looking up an upper-case code returns the text of the first entry containing it (ranges: same digit count and value in range, destination plus offset, U+FFFD when that is no Unicode code; single characters: the same code) and raises KeyError iff no entry does; get() returns its default exactly then. Iterating a range lists exactly its codes in increasing order; as_list lists all codes of all ranges once in string order and as_dict gives each its looked-up text.", "quantifier": "all ranges and codes", "why_tests_cant": "All ranges, overlaps and widths.", "anchors": ["pdfreader/types/cmap.py"]}
{"id": "C52", "title": "Membership and lookup agree", "statement": "A code is reported to be in a mapping exactly when some entry covers it; for upper-case codes this is exactly when looking it up succeeds, and ranges treat lower-case codes like upper-case ones. A lower-case code of a single-character entry is reported present but cannot be looked up (KeyError), a defect proved for every such entry.", "quantifier": "all codes in all letter cases", "why_tests_cant": "Case variants.", "anchors": ["pdfreader/types/cmap.py:BFChar"]}
{"id": "C53", "title": "bfchar destinations are UTF-16BE", "statement": "A single code whose destination is the UTF-16BE form of a text of characters below U+10000 is mapped to that text. Defects proved for all cases: a character beyond U+FFFF gives its two surrogates; a range whose hexadecimal destination has two UTF-16 units (first unit at least 11 hex) gives U+FFFD for every code.", "quantifier": "all texts", "why_tests_cant": "All code points.", "anchors": ["pdfreader/types/cmap.py:BFChar.__getitem__"]}
{"id": "C54", "title": "CMap text decoding is compositional", "statement": "Decoding a byte string with a CMap never fails (for mapping tables and total encodings) and takes, from left to right, a mapped one-byte code, else a mapped two-byte code, else one byte through the font's encoding (zero bytes dropped unless last): so mapped codes give their texts concatenated, one-byte CMaps decode byte-wise, and codes of more than two bytes are never used. Decoding any hexadecimal text ends. An unmapped two-byte code shifts the alignment of what follows (defect, proved with a witness).", "quantifier": "all strings over all CMaps", "why_tests_cant": "Alignment over arbitrary strings.", "anchors": ["pdfreader/codecs/decoder.py:CMAPDecoder.decode_hexstring"]}
{"id": "C55", "title": "CMap files parse to their mappings", "statement": "Parsing a CMap file in any layout (white space and comments between tokens, any other PostScript items between sections) gives the name following CMapName (None without one, or if it is not a name), the codespace ranges in file order, and for each of cid, notdef and bf the entries of all its range sections followed by those of all its char sections; looking a code up then gives the text of the first entry covering it, or KeyError. Defects, part of the statement: a cidchar, notdefchar or bfchar entry whose destination is an integer or a name makes the whole file fail with ParserException. Parsing any byte string ends, with a result or a listed exception.", "quantifier": "all CMap files of the grammar and all byte strings", "why_tests_cant": "unbounded layouts, section sequences and malformed inputs", "anchors": ["pdfreader/parsers/cmap.py:CMapParser.cmap", "pdfreader/types/cmap.py:CMap", "pdfreader/types/cmap.py:Range"]}
{"id": "C56", "title": "Single-byte decoding is byte-wise and total", "statement": "Decoding bytes with a codec whose table holds glyph names (all built-in encodings) never fails, consumes every byte and gives the concatenation of the texts of the single bytes, whatever was decoded before; a byte outside the table decodes to the character with its code.", "quantifier": "all byte strings", "why_tests_cant": "All inputs.", "anchors": ["pdfreader/codecs/codec.py:Codec.decode"]}
{"id": "C57", "title": "Encodings agree with their tables", "statement": "For each built-in encoding, exactly the following bytes do not decode to the single character its encode table maps to that byte: WinAnsi 160, 164; Standard 160, 168, 176, 183, 202, 216, 223, 230; MacRoman 161, 176, 182-184, 186, 195, 197, 198, 202, 219, 251; PDFDoc 30, 164, 176. Every other listed byte does, and so do strings of them.", "quantifier": "all 256 codes of four encodings, all strings over the good characters", "why_tests_cant": "Tables typed by hand; strings are unbounded.", "anchors": ["pdfreader/codecs/winansi.py", "pdfreader/codecs/standard.py", "pdfreader/codecs/macroman.py", "pdfreader/codecs/pdfdoc.py", "pdfreader/codecs/agl.py"]}
{"id": "C58", "title": "Differences override exactly the listed codes", "statement": "A Differences array that starts with a number reassigns consecutive codes from each number in it, the last assignment of a code wins and all other codes keep the base encoding; an array starting with a name raises UnboundLocalError. Bytes to which something else than a name is assigned raise AttributeError or TypeError when text is decoded.", "quantifier": "all Differences arrays", "why_tests_cant": "All arrays with overlaps.", "anchors": ["pdfreader/codecs/differences.py"]}
{"id": "C59", "title": "The glyph cache is transparent", "statement": "glyph_name_to_string returns the same text whatever names were looked up before by whatever codec class.", "quantifier": "all lookup histories", "why_tests_cant": "Histories.", "anchors": ["pdfreader/codecs/codec.py:glyph_name_to_string"]}
{"id": "C60", "title": "Decryption inverts encryption (RC4)", "statement": "A stream encrypted with RC4 under its object key (Algorithm 1) is read as its original data, with Length set to their number; the key depends only on the object number mod 2^24 and the generation mod 2^16; looking such a stream up in the document gives the plain data; Metadata streams are left alone when EncryptMetadata is false.", "quantifier": "all keys, object ids and data", "why_tests_cant": "All data.", "anchors": ["pdfreader/securityhandler.py:decrypt_rc4,decrypt"]}
{"id": "C61", "title": "Passwords authenticate", "statement": "A document whose O and U entries were made by the standard's algorithms from a user and an owner password opens with either password and gets the file key; every other password is refused with ValueError unless it passes the standard's test. Defects: documents whose ID is written with literal strings, whose Encrypt dictionary stands in the trailer itself, or whose P is written unsigned cannot be opened with any password; nor can documents with crypt filters that leave out StmF, StrF or CF, or have any entry in CF whose method is not V2, AESV2 or AESV3.", "quantifier": "all passwords, document ids, permissions; versions 1 to 5, revisions 2 to 5, all key lengths, any hash and block cipher", "why_tests_cant": "All passwords.", "anchors": ["pdfreader/securityhandler.py:authenticate,compute_u,compute_encryption_key"]}
{"id": "C62", "title": "Encrypted strings are decrypted", "statement": "Strings of encrypted documents are not decrypted: reading an object that is a string fails (AttributeError when looked up), whatever the handler, and strings inside dictionaries, arrays and stream dictionaries come out as they stand in the file, still encrypted. (The claim one would expect, that they come out decrypted, is refuted for every string.)", "quantifier": "all string objects in encrypted documents", "why_tests_cant": "All nestings.", "anchors": ["pdfreader/securityhandler.py:decrypt", "pdfreader/parsers/document.py:decrypt_indirect_object_if_necessary"]}
{"id": "C63", "title": "AES decryption removes padding", "statement": "A stream encrypted with AES-CBC (128 or 256 bits) is read as its original data followed by the 1 to 16 padding bytes, which are not removed (defect), with Length set to match.", "quantifier": "all data", "why_tests_cant": "All lengths mod 16.", "anchors": ["pdfreader/securityhandler.py:decrypt_aes128,decrypt_aes256"]}
{"id": "C64", "title": "Image byte counts are repaired", "statement": "Before building a picture the raw data is cut or zero-padded to exactly width*height*components bytes and otherwise unchanged.", "quantifier": "all sizes, modes, data", "why_tests_cant": "All sizes.", "anchors": ["pdfreader/pillow.py:_recover_broken_image_if_necessary"]}
{"id": "C65", "title": "Image samples are unpacked MSB first", "statement": "The decoded sample list of an image with b bits per component lists the b-bit big-endian groups of the data, mapped through Decode by index (IndexError if the index is too large). Groups run through the whole data: rows are not taken to start at byte boundaries (a defect for rows of a fractional number of bytes).", "quantifier": "all data, bits per component 1..16", "why_tests_cant": "All data.", "anchors": ["pdfreader/pillow.py:PILImageMixin.decoded"]}
{"id": "C66", "title": "Metadata is idempotent", "statement": "Reading document metadata gives every Info entry: strings that are UTF-8 or dates decoded, every other value unchanged; reading it again gives the same result; the Info dictionary that other readers see is changed in place.", "quantifier": "all info dictionaries", "why_tests_cant": "In-place mutation vs. repeated calls.", "anchors": ["pdfreader/document.py:metadata"]}
{"id": "C67", "title": "PDF dates are validated and keep their fields", "statement": "from_pdf_datetime accepts exactly the texts D:YYYYMMDDHHmmSSOHH'mm' (with any Unicode decimal digits, and one final newline allowed: stricter claims are refuted) and hands the date parser an ISO text with the same fields; anything else raises ValueError.", "quantifier": "all strings", "why_tests_cant": "All strings.", "anchors": ["pdfreader/utils.py:from_pdf_datetime"]}
{"id": "C68", "title": "Content parsing terminates", "statement": "Interpreting any byte string as a page content stream ends after finitely many steps with a list of operators or an exception.", "quantifier": "all byte strings", "why_tests_cant": "Non-termination is not testable.", "anchors": ["pdfreader/parsers/content.py:objects", "pdfreader/parsers/inlineimage.py"]}
{"id": "C69", "title": "Parsing does not depend on the block size", "statement": "Parsing an object, a content stream or a CMap file with any two block sizes gives the same value, the same exception and the same end position; unpacking an object stream registers the same objects with the same values in the same order, and fails in the same way, for every block size.", "quantifier": "all byte sequences, offsets and pairs of block sizes; all object streams with First not negative, all counts and offsets in them, all registries", "why_tests_cant": "All alignments of tokens and blocks.", "anchors": ["pdfreader/buffer.py", "pdfreader/parsers/base.py"]}
{"id": "C70", "title": "A font's named encoding is the one used", "statement": "A font whose Encoding is a dictionary is decoded with its base encoding. A font whose Encoding is a name that Python does not know as a codec is decoded with WinAnsiEncoding, whatever the name: a defect for MacRomanEncoding, StandardEncoding and PDFDocEncoding (proved with a witness), and the documented fallback for unknown encodings never happens.", "quantifier": "all encoding names and dictionaries, all strings", "why_tests_cant": "All names; depends on the order in which search functions are registered.", "anchors": ["pdfreader/codecs/__init__.py", "pdfreader/codecs/codec.py:Codec.search", "pdfreader/codecs/decoder.py:EncodingDecoder"]}
{"id": "C71", "title": "Glyph names may spell code points and components", "statement": "A glyph name 'uniXXXX' stands for the character with that hexadecimal code, and a name made of components joined by underscores, with any suffix after a full stop, stands for the texts of its components, whatever was looked up before. Defect: numbers are also taken with white space around them, a sign or 0x, so that names of no character name one.", "quantifier": "all code points below 10000 hex, all lists of components, all suffixes, all lookup histories", "why_tests_cant": "All names.", "anchors": ["pdfreader/codecs/codec.py:glyph_name_to_string"]}
{"id": "C72", "title": "Graphics state operators set exactly their parameter", "statement": "Executing cm, w, J, j, M, d, ri, i or Tf sets the corresponding graphics state parameter to its operand (or operands) and changes no other parameter, no saved state and nothing on the canvas but the text; after any content with balanced q/Q a parameter has the value it was last set to outside inner q/Q pairs, or its previous value. gs sets exactly the parameters for which the named ExtGState dictionary has a non-null entry; a Font entry (an array whose first element refers to a font, or a reference to such an array) is set unresolved, so that showing a string then raises TypeError.", "quantifier": "all operands, states, contents and nestings", "why_tests_cant": "Histories of operators are unbounded.", "anchors": ["pdfreader/viewer/pdfviewer.py:SimplePDFViewer", "pdfreader/viewer/graphicsstate.py"]}
{"id": "C73", "title": "Pictures are handed to PIL with the right mode, size and data", "statement": "Converting an image to PIL: pictures in DeviceRGB, DeviceCMYK (or their abbreviations) get that mode, their size and exactly width*height*components bytes of their data; JPEG pictures their encoded data; one-bit masks their data, complemented for Decode [1 0]; indexed pictures their palette; inline pictures may use abbreviated keys. Defects: DeviceGray and CalGray become palette pictures (the code looks for DeviceGrey), ICCBased arrays raise IndexError, BitsPerComponent is ignored, inline JPEG pictures raise AttributeError.", "quantifier": "all images, sizes and data", "why_tests_cant": "All images.", "anchors": ["pdfreader/pillow.py:PILImageMixin", "pdfreader/types/content.py:InlineImage", "pdfreader/types/objects.py:Image"]}
{"id": "C74", "title": "Permissions are single bits of P", "statement": "is_printable, is_modifiable and is_extractable tell bits 3, 4 and 5 (counted from 1) of the two's complement representation of P.", "quantifier": "all integers P", "why_tests_cant": "Infinitely many values, negative ones included.", "anchors": ["pdfreader/securityhandler.py:is_printable,is_modifiable,is_extractable"]}
{"id": "C75", "title": "A font's text is decoded by its ToUnicode map, else its encoding, else its name", "statement": "A string shown in a font is decoded (1) by the CMap in the font's ToUnicode stream if that is not empty: when all its codes are mapped, the text is the concatenation of the texts the file's bf sections give, the other bytes going to the font's own encoding or latin-1; (2) else, if Encoding names a predefined CMap, as latin-1 with all zero bytes but the last dropped, because the predefined files map no code to text - a defect for two-byte codes; (3) else by Encoding if it is there; (4) else as WinAnsiEncoding if BaseFont is one of the standard fonts' names (Helvetica-Oblique is misspelt in the list), as latin-1 otherwise and for fonts missing from the resources. A ToUnicode stream that does not parse makes the text fail. Fonts with entries of other types (a name as ToUnicode, a number or array as Encoding) cannot show any text: AttributeError or TypeError.", "quantifier": "all fonts, CMap files in any layout, strings and hexadecimal strings", "why_tests_cant": "All fonts and all strings; no test corpus has all CMap layouts.", "anchors": ["pdfreader/codecs/decoder.py:_get_cmap_encoding,Decoder,PredefinedCmaps", "pdfreader/codecs/cmaps", "pdfreader/viewer/simple.py:TextOperatorsMixin.decoder"]}
{"id": "C76", "title": "A document opens and its objects are read back, in any order", "statement": "Opening a file that has a header, a startxref line and a chain of cross-reference tables gives the version and the newest trailer, and then any sequence of object lookups, repetitions included, gives for every listed id the object standing where the newest listing says - streams with their dictionary and data, Length direct or a reference to a listed integer. If moreover the tables agree with the body, lookups of any ids give the object with that id or null. A document written with any number of revisions reads back as the newest values.", "quantifier": "all well-formed files in any layout, all numbers of revisions and objects, all sequences of lookups", "why_tests_cant": "Any file, any order and number of lookups over shared mutable state.", "anchors": ["pdfreader/parsers/document.py:RegistryPDFParser.__init__,locate_object,_next_brute_force_object", "pdfreader/registry.py:Registry", "pdfreader/document.py:PDFDocument"]}
{"id": "C77", "title": "What a lookup gives after other lookups", "statement": "The objects a document gives depend on the lookups made before, in exactly this way: what was learnt first about an id stays; a lookup of an id that a table lists gives the object at the newest listing; a lookup of another id scans the body from where the last such scan stopped, in file order up to the first cross-reference section, learning every object on the way, and gives null at the end. So in a document with several revisions an updated object looked up for the first time after a lookup of a missing id (a dangling reference) has the value of the oldest revision - a defect - and its newest value otherwise.", "quantifier": "all files with a chain of tables, all bodies, all sequences of lookups, any number of revisions", "why_tests_cant": "Depends on the whole history of lookups.", "anchors": ["pdfreader/parsers/document.py:RegistryPDFParser.locate_object,brute_force_locate,_next_brute_force_object", "pdfreader/registry.py:Registry.register"]}
{"id": "C78", "title": "Iterating a viewer over a file gives the text of its pages", "statement": "SimplePDFViewer over a file, iterated, gives one canvas per page of the page tree, in order, and then stops; the strings of each canvas are the strings shown by the page's content streams joined, each decoded by the font in effect (set by Tf, saved and restored by q/Q), looked up first in the page's own resources and then in those of its ancestors: by the font's ToUnicode CMap, its encoding, or byte by byte.", "quantifier": "all documents written as files whose page contents consist of text operators, graphics state parameters and operators without a handler; all page trees, content streams (plain, or encoded by any chain of ASCIIHex, ASCII85, RunLength and Flate filters, or as unpredicted PNG rows), resources and fonts with a CMap, a named, predefined or dictionary encoding with any differences, a standard name, or nothing", "why_tests_cant": "It is about whole files: every layer from bytes to text takes part, for arbitrarily large trees and contents.", "anchors": ["pdfreader/viewer/simple.py:SimplePDFViewer", "pdfreader/viewer/pdfviewer.py:PDFViewer", "pdfreader/document.py:PDFDocument", "pdfreader/viewer/resources.py:Resources.from_page"]}
{"id": "C79", "title": "Files with cross-reference streams and object streams read back, except that compressed objects are never updated", "statement": "Opening a file whose cross-reference sections are streams chained by Prev gives its version and the trailer entries of the newest stream; then any sequence of lookups, in any order, gives every object written: plain ones, those held in object streams and the streams themselves, and null for other ids, provided no id occurs twice. In general the lookups are exactly those of a small memory machine: in-use rows lead to an object at its newest offset, everything else is found by scanning from the start of the file. So an object kept only in object streams that a later revision replaces is read with its OLDEST value: the claim that lookups give the newest value is false.", "quantifier": "all such files, any number of revisions, objects and object streams, any compressor that inflate undoes, all sequences of lookups", "why_tests_cant": "Any file, any order and number of lookups over shared mutable state; any compressor.", "anchors": ["pdfreader/parsers/document.py:PDFParser.pdf_trailer,RegistryPDFParser.locate_object,_next_brute_force_object,on_parsed_indirect_object", "pdfreader/registry.py:Registry", "pdfreader/parsers/objstm.py:ObjStmParser", "pdfreader/types/native.py:Stream.filtered"]}
{"id": "C80", "title": "Streams whose Length is an object no table lists", "statement": "A stream may give its Length as a reference to an integer object that no cross-reference table lists. If that object is the next one in the file, every lookup - of the stream, of the length, of any other id, in any order, however often - gives what was written: the stream with exactly its data and the integer as Length, or null for ids that are not in the file. If the next object is another one and the stream stands first in the file, looking up the length object never ends (known defect).", "quantifier": "every header, every sequence of objects with such streams, every choice of which objects the table lists, every sequence of lookups, every number of allowed steps", "why_tests_cant": "Which path a lookup takes (table, scan, nested scan inside a scan, re-scan of the postponed stream) depends on the history of lookups and on the layout of the whole file; the failing case is non-termination, which no test can observe.", "anchors": ["pdfreader/document.py:PDFDocument.locate_object", "pdfreader/parsers/document.py:RegistryPDFParser.locate_object", "pdfreader/parsers/document.py:RegistryPDFParser.next_brute_force_object", "pdfreader/parsers/document.py:RegistryPDFParser.skip_until_next_indirect_object", "pdfreader/parsers/document.py:RegistryPDFParser.on_parsed_indirect_object"]}
{"id": "C81", "title": "Encrypted documents open with their passwords and read as they were written", "statement": "Opening a file whose trailer names an Encrypt dictionary, with a password that its handler accepts, gives the version, the trailer, the handler and the Root object; from then on any sequence of lookups, in any order, gives every object of the document as it was before encryption (streams decrypted with the key of their own number and generation, Length being the number of decrypted bytes; dictionaries, arrays, numbers and the Encrypt dictionary itself untouched; with AES the padding stays at the end) and null for ids that are not in the file. In particular a document encrypted with RC4 whose Encrypt dictionary was made from an owner and a user password as the standard describes opens with either of them (with the owner's unless it happens to pass the test for the user's).", "quantifier": "all documents without top-level string objects, any number of revisions, all keys, passwords, hash functions with 16-byte results and block ciphers, all sequences of lookups", "why_tests_cant": "Any file, any password, any key and any order of lookups; the handler is installed in the middle of opening, after some objects have been read without it.", "anchors": ["pdfreader/document.py:PDFDocument.__init__,encrypt,locate_encrypt_by_ref", "pdfreader/parsers/document.py:RegistryPDFParser.set_security_handler,on_parsed_indirect_object,locate_object", "pdfreader/securityhandler.py:StandardSecurityHandler,StandardSecurityHandlerV4,StandardSecurityHandlerV5,security_handler_factory"]}
{"id": "C82", "title": "An Encrypt dictionary that no table lists is found at the end of the file", "statement": "If the trailer's Encrypt reference is in no cross-reference table but the dictionary stands, with its header spelled 'num gen obj', among the last objects before the cross-reference section (not as the first object of all), opening the document finds it by searching backwards from there, and the document opens and reads exactly as if it were listed: handler installed, every stream decrypted, absent ids null. The claim that this holds however the dictionary is written is refuted: with another spelling of its header the document opens with the right handler, yet streams before the dictionary are read as they were encrypted.", "quantifier": "all documents whose table leaves out only the Encrypt dictionary, any objects before and after it, all keys, passwords, hashes and ciphers, all sequences of lookups", "why_tests_cant": "The search walks backwards over texts of any content and length; where it ends depends on the bytes of every object behind the dictionary, and whether streams come out decrypted depends on which of two searches succeeds first.", "anchors": ["pdfreader/document.py:PDFDocument.__init__,encrypt,locate_encrypt_by_ref", "pdfreader/parsers/document.py:RegistryPDFParser.locate_backwards_from_trailer,next_brute_force_object", "pdfreader/buffer.py:Buffer.prev,read_backward"]}
{"id": "C83", "title": "The images and forms of a canvas are exactly those the page paints", "statement": "After rendering a page on a fresh canvas, canvas.inline_images holds the inline images of the content in their order; canvas.images maps a name to an image if and only if the content paints an image XObject of that name with Do, in the order of first painting; canvas.forms maps a name to a canvas if and only if the content paints a form of that name, and that canvas is what the form's own content draws with the form's own resources from the graphics state in effect where it is painted for the first time (forms inside forms are not drawn).", "quantifier": "all page contents without operators called navigate or inline_image, all resources, all forms", "why_tests_cant": "Any content: any number and order of paintings, repeated names, saved and restored graphics states.", "anchors": ["pdfreader/viewer/simple.py:SimplePDFViewer.on_Do,on_inline_image,FormViewer", "pdfreader/viewer/canvas.py:SimpleCanvas", "pdfreader/viewer/pdfviewer.py:ContextualViewer.notify,render"]}
{"id": "C84", "title": "Rendering only adds to the canvas", "statement": "Whatever the content of a page - malformed, with wrong operands, raising in the middle - rendering never removes or changes what was already put on the canvas: strings, text content and inline images are only appended to, images and forms once there keep their value; so what the first operators drew is still there after an error. The claim without exceptions is refuted: an operator called navigate in the content calls the viewer's own method and empties the canvas and the graphics state; in forms even that does nothing.", "quantifier": "all contents (valid or not), all resources, all states of canvas and graphics state, all points at which rendering raises", "why_tests_cant": "Must hold at every point at which rendering may stop, for every content.", "anchors": ["pdfreader/viewer/simple.py:SimplePDFViewer,TextOperatorsMixin", "pdfreader/viewer/canvas.py:SimpleCanvas", "pdfreader/viewer/pdfviewer.py:ContextualViewer.notify,PDFViewer.after_navigate"]}
{"id": "C85", "title": "From the file's bytes to everything on the canvas of every page", "statement": "For a file holding a document, the viewer opened on it has one page per leaf of the page tree, and the canvas of each holds: the strings the page's content shows, each decoded with the font in effect and with the resources nearest in the page tree; the inline images in order; under its name each image XObject the content paints; under its name each form painted, with the strings and inline images of the form's own content decoded with its own resources first. XObjects that leave out the optional Type entry, or have no data, are not seen: the claim without this exception is refuted.", "quantifier": "all documents (page trees, resources, contents, fonts, images, forms) written as a file in any way the writer allows", "why_tests_cant": "Ranges over all documents and files; crosses the whole program from the reading of bytes to decoded strings.", "anchors": ["pdfreader/viewer/simple.py:SimplePDFViewer", "pdfreader/viewer/pdfviewer.py:PDFViewer", "pdfreader/viewer/resources.py:Resources", "pdfreader/document.py:PDFDocument", "pdfreader/types/objects.py:Page,PageTreeNode,XObject,Form,Image"]}
{"id": "C86", "title": "Any order of visits gives the same canvases", "statement": "Any sequence of navigate(n), next(), prev() and render() on a viewer, with exceptions caught, answers as the list of pages says: a page outside the document raises ValueError (below 1) or PageDoesNotExist and leaves the viewer on its page; otherwise the viewer is on the page asked for, and render() gives that page's canvas, the same as a fresh viewer would, however often and in whatever order pages were visited before; iterating afterwards gives the canvases from the current page to the last and stops.", "quantifier": "all sequences of commands, all documents whose pages can be enumerated and drawn", "why_tests_cant": "Must hold after every history of visits, over caches and graphics state that survive between pages.", "anchors": ["pdfreader/viewer/pdfviewer.py:PDFViewer.navigate,next,prev,iter_pages", "pdfreader/viewer/simple.py:SimplePDFViewer.render,__iter__,__next__"]}
{"id": "C87", "title": "The canvases do not depend on how the file stores its objects", "statement": "The canvases of a document's pages are the same, and any order of visits answers the same, whether the file has cross-reference tables, or cross-reference streams and object streams in any number of revisions, or is encrypted (and opened with the user's or the owner's password), or is encrypted with the Encrypt dictionary missing from the cross-reference table.", "quantifier": "all documents, all files of these kinds, all passwords, all sequences of visits", "why_tests_cant": "Ranges over all documents and over all their representations.", "anchors": ["pdfreader/document.py:PDFDocument", "pdfreader/registry.py:Registry", "pdfreader/parsers/document.py:RegistryPDFParser", "pdfreader/securityhandler.py:SecurityHandlerFactory", "pdfreader/viewer/pdfviewer.py:PDFViewer"]}
{"id": "C88", "title": "Reading the file block by block does not show", "statement": "Opening a document and looking up objects, in any order and with any exceptions caught, gives the same results whatever the size of the blocks in which the file is read: those of reading from a file held in memory as a whole. This covers files with tables, with cross-reference and object streams, with unlisted objects and lengths, encrypted files whose Encrypt dictionary the table lists, and what the viewer shows. It requires that the file ends with startxref, a number and %%EOF in this order: otherwise (number after %%EOF) the end of the file may be read twice and the number come out wrong, which is refuted by a concrete file.", "quantifier": "all files that end properly and can be opened, all block sizes, all sequences of lookups", "why_tests_cant": "Every position of every token relative to block boundaries, backwards reading, saved and restored positions; tests use files of a few blocks.", "anchors": ["pdfreader/buffer.py:Buffer", "pdfreader/document.py:PDFDocument", "pdfreader/parsers/document.py:PDFParser,RegistryPDFParser", "pdfreader/registry.py:Registry"]}
{"id": "C89", "title": "A document saved by incremental updates is shown as it is now", "statement": "For a file with any number of appended revisions (cross-reference tables linked by Prev), each of which adds or replaces objects, opening it gives the newest trailer; looking up any objects of the document, in any order and repeatedly, gives the newest value of each; and the viewer, which asks for no other objects, shows for each page of the current page tree the canvas drawn from the newest values, under random access and iteration alike. The same through the buffer for every block size.", "quantifier": "all numbers of revisions, all sets of objects added or replaced in each, all documents and page trees, all sequences of lookups and viewer commands, all block sizes", "why_tests_cant": "A test follows one or two updates; which old objects remain reachable through newer ones, and that the viewer never asks for an id that the file does not have (which would disturb later lookups, C77), is a statement about every document.", "anchors": ["pdfreader/document.py:PDFDocument", "pdfreader/registry.py:Registry", "pdfreader/viewer/simple.py:SimplePDFViewer", "pdfreader/parsers/document.py:RegistryPDFParser"]}
{"id": "C90", "title": "Streams whose decode parameters cannot be used have no data, and what follows from that", "statement": "A compressed stream whose DecodeParms is an array (as the format allows for arrays of filters) or an indirect reference has no decoded data: Stream.filtered is None and no exception is raised there. As a page's content the page can be visited but every rendering raises AttributeError and leaves the canvas empty; as one of several content streams the page cannot even be visited (TypeError); as a font's ToUnicode map no text of that font can be decoded (ParserException); as a cross-reference stream the file cannot be opened (TypeError); as an object stream none of its objects is registered (AttributeError).", "quantifier": "all streams, filters arrays beginning with FlateDecode, parameter arrays and references, all documents, histories of the viewer and pages", "why_tests_cant": "The exception is swallowed by Python's attribute lookup, far from where its effect shows; a test sees one stream in one role.", "anchors": ["pdfreader/types/native.py:Stream.filtered", "pdfreader/utils.py:cached_property", "pdfreader/filters/flate.py:decode", "pdfreader/viewer/pdfviewer.py:PDFViewer"]}
{"id": "C91", "title": "Updates that change the kind of cross-reference section cannot be opened", "statement": "If the newest sections of a file, linked by Prev, are any number of cross-reference tables and the next Prev leads to a cross-reference stream (or to any four bytes other than xref), opening the file raises ParserException; likewise if they are cross-reference streams and the next Prev leads to a table. In particular a file written with cross-reference streams and updated by a revision with a table, or the other way round, cannot be opened, although both parts can.", "quantifier": "all files with a header and a startxref, all numbers and contents of sections before the change of kind, all contents of the rest of the file", "why_tests_cant": "Tests exercise a sample file of each kind; that no mixed chain of any length opens is a statement about every such file.", "anchors": ["pdfreader/parsers/document.py:PDFParser.pdf_trailer", "pdfreader/parsers/document.py:PDFParser.direct_xref", "pdfreader/parsers/document.py:RegistryPDFParser.__init__"]}
{"id": "C92", "title": "Free rows of cross-reference tables are ignored, so deleted objects are still found", "statement": "A file whose tables have any free rows opens with its newest trailer, and looking up any object written in any revision gives the newest value written for its id, whether or not the number is listed as free there or in a newer update: an object that an update deletes is not null but keeps its value. In a file with a single revision, looking up any ids in any order gives the object, or null if there is none, whatever the free rows. The viewer shows every page of such a file, for every block size, as the document of those newest values.", "quantifier": "all numbers of revisions, all sets of objects added, replaced or listed as free in each, all values and trailers, all sequences of lookups", "why_tests_cant": "A test with one deleted object shows one outcome; that free rows never change any lookup is a statement about all histories.", "anchors": ["pdfreader/parsers/document.py:RegistryPDFParser.locate_object", "pdfreader/parsers/document.py:PDFParser.direct_xref", "pdfreader/types/xref.py:XRef"]}
{"id": "C93", "title": "Damaged files: opening and lookups return or raise an expected exception, and nothing of the scanner leaks", "statement": "Whatever bytes a file contains and whatever the password, PDFDocument(file, password) returns a document or raises ParserException, TypeError, ValueError, KeyError, AttributeError, IndexError, AssertionError, NotImplementedError, InvalidData or struct.error - or does not return; the scanner's internal BruteForceRecursion never reaches the caller. The same holds for every lookup made afterwards, in any order, whether earlier ones returned or raised, and after each of them no lookup is left on the scanner's stack. Every exception of the list is raised by some file. (Python's own RecursionError and MemoryError are not considered.)", "quantifier": "all byte strings as files, all passwords, all sequences of lookups, all decompressors, hash functions and ciphers", "why_tests_cant": "Fuzzing samples byte strings; that no byte string lets an internal exception escape, through nested scanning lookups, is a statement about all of them.", "anchors": ["pdfreader/document.py:PDFDocument.__init__", "pdfreader/parsers/document.py:RegistryPDFParser.locate_object", "pdfreader/parsers/document.py:RegistryPDFParser.next_brute_force_object"]}
{"id": "C94", "title": "A page's content may be divided into several streams that end in white space", "statement": "If a page's Contents is an array of streams, each but the last ending in white space, the viewer reads the page as the operators and inline images of all the streams, in order. Without that white space the claim is false: nothing is put between the streams, so the last token of one and the first of the next become one (streams q and Q are read as the operator qQ).", "quantifier": "all pages with any number of content streams of any content, stored and encoded in any way the filters undo", "why_tests_cant": "Where a producer divides the content is arbitrary: every position between operators, for contents of every length.", "anchors": ["pdfreader/viewer/pdfviewer.py:PDFViewer.after_navigate", "pdfreader/parsers/content.py:ContentParser.objects"]}
{"id": "C95", "title": "The viewer's annotations are those of the page it is on", "statement": "After any sequence of navigations (also to pages that do not exist), renderings and changes to canvases, viewer.annotations lists the annotation dictionaries of the current page's Annots, in order, given directly or by reference; it is None if the page has no Annots.", "quantifier": "all documents, all histories of a viewer, all annotation arrays", "why_tests_cant": "Histories and documents are unbounded.", "anchors": ["pdfreader/viewer/pdfviewer.py:PDFViewer.annotations", "pdfreader/viewer/pdfviewer.py:PDFViewer.current_page"]}
{"id": "C96", "title": "Objects hidden in hybrid-reference files are found", "statement": "In a file with cross-reference tables, objects that no table lists in use - in particular those kept in object streams and listed only in the cross-reference stream that XRefStm leads to - are found by lookups like all others, in any order and number of lookups: each id gives its object, other ids give null. The cross-reference stream itself is not consulted.", "quantifier": "all files with header, chain of tables and body of objects, object streams and startxref sections, where no id occurs twice; all hybrid-reference files of a writer; all sequences of lookups", "why_tests_cant": "Files and lookup sequences are unbounded.", "anchors": ["pdfreader/parsers/document.py:RegistryPDFParser.locate_object", "pdfreader/parsers/document.py:PDFParser.pdf_trailer", "pdfreader/parsers/document.py:RegistryPDFParser.next_brute_force_object"]}
{"id": "C97", "title": "Encrypted documents with cross-reference streams: what can be looked up", "statement": "Opening an encrypted document whose sections are cross-reference streams, and any sequence of lookups in it, give the decrypted objects of the body and those held by the decrypted object streams, in any order and number of lookups - as long as every object of the body can be decrypted. An object that cannot be decrypted (a cross-reference stream, which is never encrypted, when the handler uses AES and its data is not a vector and whole blocks long; a string object) stops the search for good: each lookup of an id that is only found behind it, or not at all, raises that object's exception (defect: cross-reference streams must not be decrypted). Even then a document written with one cross-reference stream, encrypted with RC4 or AES, opens, and the viewer shows its pages.", "quantifier": "all files with header, chain of cross-reference streams and body of objects, object streams and startxref sections, all handlers and passwords; all documents of a writer; all sequences of lookups", "why_tests_cant": "Files, keys and lookup sequences are unbounded.", "anchors": ["pdfreader/parsers/document.py:RegistryPDFParser.locate_object", "pdfreader/parsers/document.py:RegistryPDFParser.next_brute_force_object", "pdfreader/document.py:PDFDocument", "pdfreader/parsers/document.py:PDFParser.indirect_object"]}
{"id": "C98", "title": "From the file's bytes to its metadata", "statement": "The metadata of a document has the keys of the newest information dictionary, in its order, whatever was looked up before. ASCII strings are given as text and PDF dates as dates (as text when the date parser refuses them). Defects: UTF-16BE strings are given undecoded, the mark of UTF-8 strings becomes a character, PDFDocEncoding strings with characters beyond ASCII are never given as their text (undecoded, or misread when their bytes happen to be UTF-8), hexadecimal strings and references are given as they are, and the strings of an encrypted document are not decrypted. Without an information dictionary in the trailer the metadata is None; if the trailer's reference leads to no dictionary, reading it raises. All this holds also when the dictionary is inside an object stream of a file with cross-reference streams, and whatever the size of the blocks the file is read in.", "quantifier": "all files of a writer with any number of revisions, plain or encrypted, with cross-reference tables or streams and object streams, all information dictionaries, block sizes, and sequences of lookups before", "why_tests_cant": "Files, dictionaries and lookup sequences are unbounded.", "anchors": ["pdfreader/document.py:PDFDocument.metadata", "pdfreader/utils.py:from_pdf_datetime", "pdfreader/parsers/document.py:RegistryPDFParser.locate_object"]}
{"id": "C99", "title": "Damaged content streams are drawn up to the damage", "statement": "Whatever bytes a page's content has, it is read to its end or up to a place where ParserException, TypeError or KeyError is raised (each happens). Operators and inline images written correctly at the beginning, with white space after them, are handed out first and in order whatever bytes follow; so what they draw is on the canvas afterwards (unless an operator called navigate follows), and if the damage comes right after them, render() raises its exception with the canvas and graphics state they left.", "quantifier": "all byte strings as content, all well-formed beginnings, all pages, resources and viewer states", "why_tests_cant": "Content and damage are unbounded.", "anchors": ["pdfreader/parsers/content.py:ContentParser.objects", "pdfreader/viewer/pdfviewer.py:PDFViewer.render", "pdfreader/parsers/inlineimage.py:InlineImageParser.inline_image"]}
{"id": "C100", "title": "From the file's bytes to text_content", "statement": "Opening a document written as a file and rendering its pages, in any order, gives for every page whose content has no inline image and no string operands besides those shown a text_content that, parsed as a content stream, is the page's own sequence of operators and operands with every string shown replaced by its text in the font in effect - the same texts, in the same order, as canvas.strings.", "quantifier": "all documents, pages, fonts, contents and orders of visits", "why_tests_cant": "Documents, contents and histories are unbounded.", "anchors": ["pdfreader/viewer/simple.py:TextOperatorsMixin.after_handler,on_Tj,on_TJ,object_to_string", "pdfreader/viewer/pdfviewer.py:PDFViewer.render", "pdfreader/document.py:PDFDocument.__init__"]}
{"id": "C101", "title": "Pages that cannot be shown do not affect the others", "statement": "Once a viewer is open, navigate(n) followed by render() gives for each n always the same result, whatever pages were visited before and whether those could be loaded and drawn or not: the page's canvas, the exception that page raises by itself, or the exceptions for page numbers out of range. So in a file some of whose pages are damaged, all others are shown as they should be. The first page is an exception: if it cannot be loaded, the viewer cannot be created.", "quantifier": "all documents with any pages damaged, all histories of visits", "why_tests_cant": "Documents, kinds of damage and histories are unbounded.", "anchors": ["pdfreader/viewer/pdfviewer.py:PDFViewer.navigate,__init__", "pdfreader/viewer/simple.py:SimplePDFViewer.render,after_navigate"]}
{"id": "C102", "title": "AES-encrypted documents are shown like the documents themselves, if their streams tell where their data end", "statement": "A document is encrypted with AES-128 (V 4, AESV2) or AES-256 (V 5, AESV3) and opened with the user's password (AES-256: or the owner's). The reader leaves the padding after the data of every stream. If every stream's first filter knows where its data end (Flate, RunLength, ASCIIHex), the viewer shows for every page exactly what the document holds - as it is now, if it was saved by updates -: texts, inline images, images and forms painted, in any order of visits; and lookups give the document's objects, with padding after their data. Content without a filter is read with the padding too: if it ends in white space nothing is lost, but one operator more may be read; if it does not, its last operator is lost whenever the padding is not white space.", "quantifier": "all documents, passwords and keys; all padding lengths; any hash functions and block cipher", "why_tests_cant": "Documents, keys and contents are unbounded.", "anchors": ["pdfreader/securityhandler.py:StandardSecurityHandlerV4.decrypt,decrypt_aes128,StandardSecurityHandlerV5.decrypt_aes256", "pdfreader/viewer/simple.py:SimplePDFViewer.render", "pdfreader/parsers/content.py:ContentParser.objects"]}
{"id": "C103", "title": "Readers that share a file object do not disturb each other", "statement": "Several documents and viewers may be made on one file object, with whatever block sizes. If they take turns - switching after any number of bytes read, in any order - each gets exactly what it would get alone: what one has got never depends on the others or on where the file position was, it is always the beginning of what it gets by itself, and after enough turns it is all of it; so written documents open, their objects are looked up and their pages drawn as ever. In threads that do not wait for each other this fails for every file: between seek and read another thread may move the position, and other bytes than those asked for are read.", "quantifier": "all files, numbers of readers, block sizes, programs run by the readers, schedules and initial positions", "why_tests_cant": "Interleavings are unbounded schedules; a test sees a few.", "anchors": ["pdfreader/buffer.py:Buffer._read_forward,_read_backward,_read_head,_read_tail,set_state", "pdfreader/document.py:PDFDocument.__init__"]}
{"id": "C104", "title": "Typed objects get their class", "statement": "A dictionary of the document, and any reference to it, is given as an object of the class its /Type names if that is one of the 47 known names (Catalog, Page, Font, Annot, ...), and as one of the base class if there is no /Type or another name; a stream as an image, form, group or other XObject by its /Subtype, as a character map or metadata, or as a plain stream; the entries are unchanged. Defects: font descriptors, beads and object streams get the base class, because the tables misspell their names (and the misspelled names get their classes); a /Type (or an XObject's /Subtype) given as a reference, as PDF allows, is not followed: TypeError is raised for the object.", "quantifier": "all dictionaries and streams, all type names, all documents", "why_tests_cant": "Dictionaries and names are unbounded.", "anchors": ["pdfreader/types/objects.py:obj_factory,DICT_OBJECTS,STREAM_BASED_OBJECTS,XOBJECTS", "pdfreader/document.py:PDFDocument.build"]}
{"id": "C105", "title": "deep_obj_by_ref stops at the given depth", "statement": "deep_obj_by_ref(obj, maxdepth) asks for the object of an indirect object's number, again and again until something else comes: that is returned, or the exception met on the way, if maxdepth is at least the number of steps; with a smaller depth, and in circles, it raises ValueError. With a negative depth nothing stops it in a circle. Defect: it tests for indirect objects, which documents never return, and not for references: given a reference it returns it unresolved, and an object that is a reference is returned as such.", "quantifier": "all documents, arguments and depths", "why_tests_cant": "Chains and depths are unbounded.", "anchors": ["pdfreader/document.py:PDFDocument.deep_obj_by_ref,obj_by_ref", "pdfreader/types/native.py:IndirectObject"]}
{"id": "C106", "title": "The code space of a character map", "statement": "A code belongs to the code space of a character map exactly if, as a number, it lies between the ends of a range of codes of its length; max is the greatest number in any range (ValueError without ranges); as_list gives every code once, in upper case and in the order of texts. Defect: PDF compares codes byte by byte, so that codes of several bytes belong to ranges that do not contain them (<81FF> to <8140>-<9FFC>).", "quantifier": "all lists of ranges of hexadecimal codes, all codes", "why_tests_cant": "Ranges and codes are unbounded.", "anchors": ["pdfreader/types/cmap.py:CodespaceRanges", "pdfreader/types/cmap.py:Range"]}
{"id": "C107", "title": "Merging cross-reference tables", "statement": "A cross-reference table lists, of each kind (free, in use, compressed) and number, the last entry it was given. Merging the table of some entries with the table of others gives exactly the table of all of them, one's own first and the other's last - the same entries in the same order -, so that merging is associative and repeating it changes nothing. Defect: the kinds are kept apart, so a number that the other table frees stays in use.", "quantifier": "all lists of entries", "why_tests_cant": "Tables are unbounded.", "anchors": ["pdfreader/types/xref.py:XRef.merge,add_entry"]}
{"id": "C108", "title": "Inline images' properties and filtered data", "statement": "An inline image's properties (Width, ColorSpace, ...) are the entries of its dictionary, under their full or their abbreviated keys. Its filtered data are the data that were encoded: by no filter, by one, or by any number applied one after another, named in full or abbreviated, under either key; with both keys the full one counts, unless it says nothing (null or an empty array). A name that is no filter raises NotImplementedError. Defects: false and zero under a full key are read as None; with an array of decode parameters, which PDF allows, filtered raises AttributeError.", "quantifier": "all image dictionaries, data, filters and chains of filters", "why_tests_cant": "Dictionaries, data and chains are unbounded.", "anchors": ["pdfreader/types/content.py:InlineImage", "pdfreader/types/native.py:apply_filter_multi", "pdfreader/filters/__init__.py:apply_filter"]}
{"id": "C109", "title": "Comparing parsed values", "statement": "== between two values read from a file (numbers, names, strings, null, references, arrays, dictionaries, nested to any depth) is true exactly if they are the same: the same number however written, the same text or bytes, the same reference, arrays of the same items in the same order, dictionaries with the same items under the same keys in whatever order; two streams are equal exactly if their dictionaries and data are. It is an equivalence relation. The only exception it raises is AttributeError, and values without references are compared without exceptions. Defects: comparing a reference with anything that is neither reference nor stream, from either side and at any depth, raises AttributeError, and so does comparing a stream with anything that is no stream, except that a reference equals a stream whose entries num and gen are its numbers; a name equals a hexadecimal string of the same text, and true equals 1.", "quantifier": "all pairs and triples of values, of any size and depth", "why_tests_cant": "Values nest without bound.", "anchors": ["pdfreader/types/native.py:Stream.__eq__,__getattr__,IndirectReference.__eq__,Name,HexString,String"]}
