#!/usr/bin/env python3
"""Writes /verif/properties.jsonl (one property per line)."""
import json, os
P = []
def p(title, statement, quantifier, why, anchors):
    P.append(dict(id="C%02d" % (len(P)+1), title=title, statement=statement,
                  quantifier=quantifier, why_tests_cant=why, anchors=anchors))

p("Buffering is transparent",
  "After Buffer.reset(r), every byte returned by current/next/prev is the file byte at the logical position (None outside the file), whatever the block size, as long as the cursor has not visited both a position before r and a position past the block loaded by the reset. Outside that discipline the buffer returns wrong bytes.",
  "all files, block sizes > 0, reset offsets and all finite sequences of cursor operations",
  "The guarantee is about unbounded cursor histories crossing arbitrary block boundaries.",
  ["pdfreader/buffer.py:Buffer"])
p("get_state/set_state is an exact undo",
  "Restoring a state obtained with get_state makes every later read behave as if the operations between the two calls had never happened.",
  "all files, all operation sequences between save and restore, all later sequences",
  "Backtracking correctness quantifies over what happened in between and after.",
  ["pdfreader/buffer.py:get_state,set_state", "pdfreader/parsers/base.py:numeric_or_indirect_reference"])
p("Object parsing terminates",
  "Parsing any PDF object (object()) from any byte sequence at any position either returns a value or raises; it never loops, and on success of a value it consumed at least one byte.",
  "all byte sequences and all positions",
  "Non-termination can only be excluded for every input by a measure argument.",
  ["pdfreader/parsers/base.py:BasicTypesParser"])
p("Integer literals are exact",
  "Parsing the decimal text of any integer, with optional sign and leading zeros, followed by any non-digit non-point byte, returns exactly that integer and consumes exactly the literal.",
  "all integers, all leading-zero paddings, all continuations",
  "Unbounded integers and continuations.",
  ["pdfreader/parsers/base.py:numeric"])
p("Real literals are exact",
  "Parsing [sign]digits.digits returns the Decimal with exactly those digits and exponent. (True for positive literals of any length and for negative ones of at most 28 significant digits; beyond that the code silently rounds.)",
  "all digit strings",
  "Precision loss only shows for long literals.",
  ["pdfreader/parsers/base.py:numeric"])
p("Names round-trip",
  "For every sequence of latin-1 characters, writing it as a PDF name with every irregular byte and '#' as #xx and parsing it back yields the same name and stops at the delimiter.",
  "all names and continuations",
  "Escaping bugs hide in single byte values and adjacency.",
  ["pdfreader/parsers/base.py:name"])
p("Literal strings round-trip",
  "For every byte string, escaping it with the library's own escape table and parsing '('+escaped+')' returns the original bytes; balanced parentheses may also be left unescaped; octal escapes of 1-3 digits denote their byte. Every text after an opening parenthesis is either read as a string or, if no parenthesis closes it, refused with TypeError. Strings are read as ISO 32000-1 says except that an end of line CR or CR LF is kept (not turned into LF), and that the backslash of an unknown escape and an octal code above 255 are kept.",
  "all byte strings, all texts of strings, all continuations",
  "Nesting depth and escape adjacency are unbounded.",
  ["pdfreader/parsers/base.py:string", "pdfreader/constants.py:STRING_ESCAPED,ESCAPED_CHARS", "pdfreader/utils.py:pdf_escape_string"])
p("Hexadecimal strings round-trip",
  "Any sequence of hex digits in any case with whitespace/comments interleaved, followed by '>', (no comment directly after '<': such a one is rejected) parses to the upper-cased digits, padded with one 0 when odd; decoding that string gives back the encoded bytes.",
  "all byte strings, letter cases and interleavings",
  "Interleavings are unbounded.",
  ["pdfreader/parsers/base.py:hexstring", "pdfreader/types/native.py:HexString"])
p("Composite objects round-trip",
  "For every PDF value built from null, booleans, numbers, names, strings, hex strings, references, arrays and dictionaries (any nesting), any standard textual form of it (any whitespace/comments between tokens) parses back to the same value and consumes exactly that text.",
  "all values of all sizes and depths, all layouts of whitespace and comments, all continuations",
  "Structural induction over unbounded nesting.",
  ["pdfreader/parsers/base.py:object,array,dictionary,numeric_or_indirect_reference,maybe_spaces_or_comments"])
p("Dictionary keys: the last duplicate wins",
  "Parsing a dictionary yields exactly one value per key, the value of the last occurrence in the text.",
  "all dictionaries with any duplicates",
  "All orders and multiplicities of duplicate keys.",
  ["pdfreader/parsers/base.py:dictionary"])
p("Streams with a correct Length are returned verbatim",
  "If Length equals the number of data bytes, the stream's raw data is exactly those bytes, whatever they contain (including 'endstream'), for every EOL convention after 'stream' and every whitespace before 'endstream'.",
  "all data byte strings, EOL variants, continuations",
  "Adversarial data contents.",
  ["pdfreader/parsers/base.py:_stream,stream"])
p("Streams with a wrong Length are recovered",
  "If Length is wrong, the data up to the first 'endstream' minus trailing EOL bytes is returned. (Fails with TypeError instead when Length runs past the end of the file, and data that really ends with EOL bytes loses them.)",
  "all data and all wrong lengths",
  "Relation between a wrong length and the position of the end of file.",
  ["pdfreader/parsers/base.py:_stream"])
p("Indirect objects round-trip",
  "'n g obj <value> endobj' parses to object (n,g,value) for every value and layout; for streams a missing endobj is tolerated and parsing resumes right after endstream's trailing spaces, provided at least six more bytes follow (at the end of the file it is a TypeError).",
  "all numbers, generations, values, layouts",
  "Unbounded values.",
  ["pdfreader/parsers/document.py:indirect_object"])
p("Integers and references are told apart",
  "In a sequence of integers, 'n g R' is read as a reference and every other integer as an integer, whatever lookahead was needed; the lookahead is fully undone.",
  "all integer/reference sequences",
  "Backtracking interacts with everything that follows.",
  ["pdfreader/parsers/base.py:numeric_or_indirect_reference"])
p("Parse failures are confined to known exceptions",
  "Parsing any bytes as an object raises nothing but ParserException, TypeError (input exhausted) or KeyError (stream without Length). In particular not every malformed input yields ParserException.",
  "all byte sequences",
  "Absence of other exceptions for every input.",
  ["pdfreader/parsers/base.py"])
p("Header lookup",
  "pdf_header returns (version, offset) only if a %PDF-d.d or %IPS-Adobe-d.d PDF-d.d marker with that version stands at that offset, and it finds a marker whenever one starts a line and ends within the first 1024 bytes (files of at least 22 bytes).",
  "all files",
  "Window alignment for every position.",
  ["pdfreader/parsers/document.py:pdf_header"])
p("startxref lookup",
  "xref_offset returns the number following the last 'startxref' that precedes the last '%%EOF' found in the final 1023 bytes; without such markers a ParserException is raised. Markers at the very first byte of the file are not seen.",
  "all files",
  "Backward scanning over arbitrary content.",
  ["pdfreader/parsers/document.py:seek_eof,xref_offset"])
p("Cross-reference tables round-trip",
  "A textual xref section with any number of subsections and entries parses to exactly the listed in-use and free entries, each under its object number, later in-use (free) entries for the same number replacing earlier in-use (free) ones. In-use and free entries are kept apart: an object listed in use and later freed in the same table stays in use.",
  "all tables",
  "Unbounded tables and duplicates.",
  ["pdfreader/parsers/document.py:direct_xref,xref_range,xref_entry", "pdfreader/types/xref.py:XRef"])
p("Following /Prev terminates",
  "Reading the trailer collects the sections linked by /Prev, newest first, and terminates whenever every /Prev on the way leads to an earlier offset, whatever else the file contains; a /Prev cycle of tables is followed for ever.",
  "all files",
  "Non-termination is not observable by testing.",
  ["pdfreader/parsers/document.py:pdf_trailer"])
p("Cross-reference streams decode",
  "An xref stream with fields W=[w1 w2 w3] (w1>0) and one Index range (or none, then starting at 0) gives object number start+i, for every row i of type 1, that row's offset and generation, and lists no other object in use.",
  "all field widths, all entry lists",
  "All widths and row counts.",
  ["pdfreader/types/xref.py:XRef.from_stream"])
p("Xref-stream defaults and multiple ranges",
  "An xref stream whose type column has width 0 lists no object in use (the specification says type 1 is the default), and only the first pair of a multi-range Index is used: later rows are numbered consecutively from the first start.",
  "all xref streams",
  "Configuration space.",
  ["pdfreader/types/xref.py:XRef.from_stream"])
p("Compressed objects are reachable through the xref",
  "An object listed as compressed in an xref stream is never looked for in that object stream through the cross-reference: looking it up behaves as if the entry were absent, so an older revision listed in use is returned instead of the newer compressed one.",
  "all xref streams and files",
  "A dead branch cannot be shown dead by tests.",
  ["pdfreader/types/xref.py:CompressedObjEntry,XRef.add_entry", "pdfreader/parsers/document.py:locate_object_by_xref"])
p("The first registration of an object wins",
  "Over any history of registrations, an object id keeps the value of its first registration (unless forced), registrations never disappear and other ids are unaffected.",
  "all registration histories including object streams",
  "Histories are unbounded.",
  ["pdfreader/registry.py:Registry.register"])
p("Object streams are unpacked faithfully",
  "Registering an object stream built from any list of (number, value) makes every listed number available with generation 0 and its value (first wins).",
  "all lists of objects",
  "Offsets arithmetic over all sizes.",
  ["pdfreader/parsers/objstm.py", "pdfreader/registry.py:register_object_stream"])
p("Object lookup is stable",
  "Whenever locate_object(n,g) returns a value, that is the value it leaves registered, and every later successful lookup of the same id in the session returns the same value, whatever other lookups happen; an id that no section leads to is the first object of that id in the body of the file, and null if there is none.",
  "all lookup histories, all files",
  "Caching vs. history.",
  ["pdfreader/parsers/document.py:locate_object,locate_object_by_xref,next_brute_force_object"])
p("The newest revision wins",
  "With incremental updates, an object listed in several xref sections is taken from the newest section that lists it in use with the requested generation, sections listing it at an offset where no number stands being passed over.",
  "all chains of xref sections",
  "All chain lengths and listings.",
  ["pdfreader/parsers/document.py:locate_object_by_xref,pdf_trailer"])
p("Building resolves references without looping",
  "build() of an object returns what it stands for: references followed, arrays element by element, dictionaries and streams typed with their entries kept; this holds for every document whose arrays do not contain themselves, whatever cycles go through dictionaries and streams. A cycle through arrays is followed for ever, so is any dictionary cycle with lazy=False, and a reference to a reference is resolved one step only. With lazy=False, an object from which nothing leads back to itself is returned with every reference at any depth replaced by the object it names, however often objects are shared.",
  "all object graphs",
  "Cyclic structures of any shape.",
  ["pdfreader/document.py:build,obj_by_ref", "pdfreader/types/objects.py:ArrayBasedObject"])
p("Dictionary objects are stable under reading",
  "Reading entries of a dictionary object in any order, any number of times, returns for each key the resolved value of the underlying entry, and never changes keys, membership or other entries.",
  "all dictionaries and read histories",
  "Caching vs. history.",
  ["pdfreader/types/objects.py:DictBasedObject"])
p("Dictionary objects obey dict laws under update",
  "Over any history of reads and changes of a dictionary object: an assignment to a key not read before is seen; but the first value read of a key sticks (later assignments and pop are not seen by d[k]); del d[k] never removes the key, it only forgets the value read (KeyError if none was); pop removes the key from the listing only.",
  "all update histories",
  "Interaction of caching with all operations.",
  ["pdfreader/types/objects.py:DictBasedObject"])
p("Pages are enumerated in document order",
  "pages() yields exactly the leaves of the page tree from left to right, each once, for every tree shape, then ends; the first pages need only the first children of the root, whatever the later ones are. If a child is null (a dangling reference) the enumeration starts over there and never ends.",
  "all finite page trees",
  "All tree shapes and depths.",
  ["pdfreader/types/objects.py:PageTreeNode.pages", "pdfreader/document.py:pages"])
p("Navigation reaches exactly the existing pages",
  "In a document with N pages, navigate(n) for 1<=n<=N, if the page's resources and content can be loaded, makes the n-th page current with an empty canvas and a fresh graphics state; for any other n it raises (PageDoesNotExist beyond N) and changes nothing; next/prev move by one; a viewer is always on an existing page. (Defect, proved: below 1 - so also prev() on page 1 - it raises a plain ValueError instead of the promised PageDoesNotExist.)",
  "all documents, all navigation histories",
  "Page cache vs. history.",
  ["pdfreader/viewer/pdfviewer.py:navigate,next,prev"])
p("Iterating a viewer visits every remaining page once",
  "Whatever was done with the viewer before, iter(viewer) and iter_pages() yield the items (canvas a fresh viewer draws, resp. page) for the current page up to the last page in order, once each, then raise StopIteration for ever. A page that cannot be drawn is not passed: every further call draws it again and raises what that raises.",
  "all page counts and starting pages",
  "Any number of pages.",
  ["pdfreader/viewer/pdfviewer.py:CanvasIterator,PagesIterator"])
p("Rendering does not depend on history",
  "After any history of navigation to existing or missing pages, rendering, and changes the user makes to canvases he got, render() on a page gives the canvas a fresh viewer would give for that page (or fails with the same exception), provided the viewer's own canvas was not changed since navigating there. (Defects, proved: the viewer's canvas object is emptied in place by the next navigation; and after a navigation that failed because an existing page's resources cannot be loaded, render() draws the previous page's content and keeps it as the new page's.)",
  "all histories of navigate/render/mutate",
  "Caching vs. history.",
  ["pdfreader/viewer/simple.py:render,after_navigate", "pdfreader/viewer/canvas.py:SimpleCanvas"])
p("q/Q restore the graphics state",
  "For any balanced content between a q and its Q (nested q/Q of any depth, any operators, XObjects whose content is balanced), the graphics state after Q equals the one before q and the stack is unchanged (a stack that was empty holds the initial state explicitly afterwards); right after q the state is the one before.",
  "all balanced operator sequences",
  "Nesting of any depth.",
  ["pdfreader/viewer/graphicsstate.py", "pdfreader/viewer/pdfviewer.py:on_q,on_Q"])
p("Unmatched Q does not fail and falls back to the enclosing state",
  "Q without a matching q never fails and changes nothing on the canvas but its text; on an empty stack it is a no-op, else the current state is dropped: after balanced content on a fresh page it brings back the initial state. (That it be harmless, i.e. keep the state, is refuted.)",
  "all operator sequences",
  "Unbalanced sequences of any shape.",
  ["pdfreader/viewer/graphicsstate.py:restore_state"])
p("Do leaves the graphics state unchanged",
  "Painting an XObject leaves the caller's graphics state and stack depth unchanged provided the form's content has balanced q/Q, whatever the form sets.",
  "all forms with balanced content",
  "Unbounded contents.",
  ["pdfreader/viewer/pdfviewer.py:before_Do,after_Do", "pdfreader/viewer/simple.py:on_Do"])
p("Resources are inherited, nearest wins",
  "For every page and ancestor chain (and form), a named resource resolves to the entry of the nearest level that defines it; ProcSets are the union; collecting the resources succeeds if every level's entries are dictionaries or lists. A KeyError while reading a page's Resources counts as having none; other exceptions, and Resources that are no dictionary, break the page. (Defect, proved: a cycle of Parent entries makes it run for ever.)",
  "all chains and resource dictionaries",
  "All depths and overlaps.",
  ["pdfreader/viewer/resources.py:Resources.from_page"])
p("Content streams split into operators and operands",
  "Parsing any sequence of operators with operands written with arbitrary separators yields exactly those operators with those operands in order.",
  "all operator sequences and layouts",
  "Unbounded programs.",
  ["pdfreader/parsers/content.py"])
p("Inline image data is returned verbatim",
  "An inline image whose data contains no EI bordered by whitespace yields exactly its dictionary and data, and parsing continues after EI.",
  "all data strings, all dictionaries",
  "Adversarial data.",
  ["pdfreader/parsers/inlineimage.py"])
p("Text extraction preserves order and content",
  "canvas.strings is the concatenation, in content order, of the decoded string operands of every Tj, ' and TJ, each decoded with the font selected by the last Tf in effect (q/Q respected); other operators add nothing. (The double quote operator is not supported: with its three operands it always raises TypeError.)",
  "all operator sequences, all decoders",
  "Unbounded programs.",
  ["pdfreader/viewer/simple.py:TextOperatorsMixin"])
p("Text in text_content can be parsed back",
  "After rendering any content (operators with numbers, booleans, null, plain names, and arrays and dictionaries of them, and shown strings), canvas.text_content parses back, as a content stream, to the same operators in order, with the decoded strings in place of the shown ones - whatever characters those contain. An inline image is put on the canvas with its entries, its filters and all its bytes - in base 85, unless its first filter is an ASCII filter, whose data are kept. (Inline images do not survive parsing back, as the base-85 alphabet is not the one the filter reads, and images without filter get one named None; neither do strings among the operands of operators that show no text, such as /ActualText in a marked-content property list: refuted.)",
  "all strings",
  "Escaping of arbitrary strings.",
  ["pdfreader/viewer/simple.py:object_to_string,on_Tj", "pdfreader/utils.py:pdf_escape_string"])
p("Unbalanced BT/ET never break rendering",
  "For any sequence of BT/ET the viewer never fails, the bracket stack never exceeds one entry and mode is BT exactly between a BT and the next ET.",
  "all BT/ET sequences",
  "Sequences are unbounded.",
  ["pdfreader/viewer/simple.py:on_BT,on_ET"])
p("ASCIIHexDecode inverts hex encoding",
  "Decoding any hex encoding (any case, any whitespace, odd final digit) up to '>' gives the bytes, ignores what follows, and never raises on any input.",
  "all byte strings and encodings; all inputs for totality",
  "Unbounded input.",
  ["pdfreader/filters/asciihex.py"])
p("ASCII85Decode inverts Ascii85 encoding",
  "Decoding the Ascii85 encoding of any bytes, with any whitespace interleaved and ~> at the end, gives the bytes; every input yields bytes, never an exception.",
  "all byte strings and encodings; all inputs for totality",
  "Unbounded input; carries across 5-digit groups.",
  ["pdfreader/filters/ascii85.py"])
p("RunLengthDecode inverts run-length encoding",
  "Decoding any well-formed run-length encoding gives the encoded bytes; bytes after EOD are ignored; a stream truncated before EOD gives b''; no input raises.",
  "all run sequences; all inputs for totality",
  "Unbounded input.",
  ["pdfreader/filters/runlength.py"])
p("LZWDecode inverts LZW encoding",
  "A conforming LZW stream without the final EOD code is decoded to its original bytes if and only if none of its codes refers to the table entry it completes itself; otherwise bytes are lost (none are added and nothing is raised). A conforming stream with the EOD code the standard demands always decodes to b''. Any other data gives bytes or TypeError. (That conforming streams decode to their data is thus refuted.)",
  "all code sequences",
  "Dictionary growth and code-width changes over arbitrary sequences.",
  ["pdfreader/filters/lzw.py"])
p("Predictors are reversed",
  "With a PNG predictor only the tag byte of every row is removed: rows of any filter types come out right if and only if the prediction is zero everywhere, in particular rows of type None; rows of every other type do not in general (refuted). The TIFF predictor is not supported (LZW: b'', Flate: ValueError), and rows whose samples have more than one byte are cut wrongly.",
  "all row counts, widths, filter types",
  "All sizes.",
  ["pdfreader/filters/predictors.py"])
p("Filter chains are applied in order",
  "A stream with a filter array is decoded by applying the filters left to right; no filter means the raw data; an unknown filter raises NotImplementedError; aliases denote the same filter.",
  "all filter lists and data",
  "All compositions.",
  ["pdfreader/types/native.py:apply_filter_multi", "pdfreader/filters/__init__.py:apply_filter"])
p("CCITT G4 decoding yields whole rows",
  "With K = -1 and any Columns >= 1, every data decodes to a whole number of rows of ceil(Columns/8) bytes (padding bits zero) or fails with InvalidData, uncompressed mode included; it never loops, indexes out of range or raises anything else. Decoding a prefix gives a prefix of the rows, and an error in a prefix is an error of the whole. Other parameters (defects, part of the statement): K absent or anything but -1 returns the data undecoded, a missing Columns is a TypeError although its default is 1728, an array of DecodeParms an AttributeError, Columns 0 can raise IndexError.",
  "all byte strings, widths and flags",
  "bit-level state machine over all inputs",
  ["pdfreader/filters/ccittfax.py:ccittfaxdecode", "pdfreader/filters/ccittfax.py:CCITTG4Parser"])
p("CCITT G4 decoding inverts G4 encoding",
  "Every picture of any width and height has a T.6 code (with the mode choice T.6 prescribes), and decoding any T.6 code of a picture, whatever applicable modes and make-up codes the encoder used, with or without byte-aligned rows, ended by EOFB or by zero padding, gives exactly its rows, one bit per pixel, black as 1 iff BlackIs1.",
  "all pictures and all their codes",
  "all pictures, all encoders",
  ["pdfreader/filters/ccittfax.py:CCITTG4Parser", "pdfreader/filters/ccittfax.py:CCITTFaxDecoder.output_line"])
p("CMap range lookup",
  "A range of hexadecimal codes is accepted iff both ends have the same number of digits (AssertionError otherwise) and begin <= end (ValueError otherwise). Looking up an upper-case code returns the text of the first entry containing it (ranges: same digit count and value in range, destination plus offset, U+FFFD when that is no Unicode code; single characters: the same code) and raises KeyError iff no entry does; get() returns its default exactly then. Iterating a range lists exactly its codes in increasing order; as_list lists all codes of all ranges once in string order and as_dict gives each its looked-up text.",
  "all ranges and codes",
  "All ranges, overlaps and widths.",
  ["pdfreader/types/cmap.py"])
p("Membership and lookup agree",
  "A code is reported to be in a mapping exactly when some entry covers it; for upper-case codes this is exactly when looking it up succeeds, and ranges treat lower-case codes like upper-case ones. A lower-case code of a single-character entry is reported present but cannot be looked up (KeyError), a defect proved for every such entry.",
  "all codes in all letter cases",
  "Case variants.",
  ["pdfreader/types/cmap.py:BFChar"])
p("bfchar destinations are UTF-16BE",
  "A single code whose destination is the UTF-16BE form of a text of characters below U+10000 is mapped to that text. Defects proved for all cases: a character beyond U+FFFF gives its two surrogates; a range whose hexadecimal destination has two UTF-16 units (first unit at least 11 hex) gives U+FFFD for every code.",
  "all texts",
  "All code points.",
  ["pdfreader/types/cmap.py:BFChar.__getitem__"])
p("CMap text decoding is compositional",
  "Decoding a byte string with a CMap never fails (for mapping tables and total encodings) and takes, from left to right, a mapped one-byte code, else a mapped two-byte code, else one byte through the font's encoding (zero bytes dropped unless last): so mapped codes give their texts concatenated, one-byte CMaps decode byte-wise, and codes of more than two bytes are never used. Decoding any hexadecimal text ends. An unmapped two-byte code shifts the alignment of what follows (defect, proved with a witness).",
  "all strings over all CMaps",
  "Alignment over arbitrary strings.",
  ["pdfreader/codecs/decoder.py:CMAPDecoder.decode_hexstring"])
p("CMap files parse to their mappings",
  "Parsing a CMap file in any layout (white space and comments between tokens, any other PostScript items between sections) gives the name following CMapName (None without one, or if it is not a name), the codespace ranges in file order, and for each of cid, notdef and bf the entries of all its range sections followed by those of all its char sections; looking a code up then gives the text of the first entry covering it, or KeyError. Defects, part of the statement: a cidchar, notdefchar or bfchar entry whose destination is an integer or a name makes the whole file fail with ParserException. Parsing any byte string ends, with a result or a listed exception.",
  "all CMap files of the grammar and all byte strings",
  "unbounded layouts, section sequences and malformed inputs",
  ["pdfreader/parsers/cmap.py:CMapParser.cmap", "pdfreader/types/cmap.py:CMap", "pdfreader/types/cmap.py:Range"])

p("Single-byte decoding is byte-wise and total",
  "Decoding bytes with a codec whose table holds glyph names (all built-in encodings) never fails, consumes every byte and gives the concatenation of the texts of the single bytes, whatever was decoded before; a byte outside the table decodes to the character with its code.",
  "all byte strings",
  "All inputs.",
  ["pdfreader/codecs/codec.py:Codec.decode"])
p("Encodings agree with their tables",
  "For each built-in encoding, exactly the following bytes do not decode to the single character its encode table maps to that byte: WinAnsi 160, 164; Standard 160, 168, 176, 183, 202, 216, 223, 230; MacRoman 161, 176, 182-184, 186, 195, 197, 198, 202, 219, 251; PDFDoc 30, 164, 176. Every other listed byte does, and so do strings of them.",
  "all 256 codes of four encodings, all strings over the good characters",
  "Tables typed by hand; strings are unbounded.",
  ["pdfreader/codecs/winansi.py", "pdfreader/codecs/standard.py", "pdfreader/codecs/macroman.py", "pdfreader/codecs/pdfdoc.py", "pdfreader/codecs/agl.py"])
p("Differences override exactly the listed codes",
  "A Differences array that starts with a number reassigns consecutive codes from each number in it, the last assignment of a code wins and all other codes keep the base encoding; an array starting with a name raises UnboundLocalError. Bytes to which something else than a name is assigned raise AttributeError or TypeError when text is decoded.",
  "all Differences arrays",
  "All arrays with overlaps.",
  ["pdfreader/codecs/differences.py"])
p("The glyph cache is transparent",
  "glyph_name_to_string returns the same text whatever names were looked up before by whatever codec class.",
  "all lookup histories",
  "Histories.",
  ["pdfreader/codecs/codec.py:glyph_name_to_string"])
p("Decryption inverts encryption (RC4)",
  "A stream encrypted with RC4 under its object key (Algorithm 1) is read as its original data, with Length set to their number; the key depends only on the object number mod 2^24 and the generation mod 2^16; looking such a stream up in the document gives the plain data; Metadata streams are left alone when EncryptMetadata is false.",
  "all keys, object ids and data",
  "All data.",
  ["pdfreader/securityhandler.py:decrypt_rc4,decrypt"])
p("Passwords authenticate",
  "A document whose O and U entries were made by the standard's algorithms from a user and an owner password opens with either password and gets the file key; every other password is refused with ValueError unless it passes the standard's test. Defects: documents whose ID is written with literal strings, whose Encrypt dictionary stands in the trailer itself, or whose P is written unsigned cannot be opened with any password; nor can documents with crypt filters that leave out StmF, StrF or CF, or have any entry in CF whose method is not V2, AESV2 or AESV3.",
  "all passwords, document ids, permissions; versions 1 to 5, revisions 2 to 5, all key lengths, any hash and block cipher",
  "All passwords.",
  ["pdfreader/securityhandler.py:authenticate,compute_u,compute_encryption_key"])
p("Encrypted strings are decrypted",
  "Strings of encrypted documents are not decrypted: reading an object that is a string fails (AttributeError when looked up), whatever the handler, and strings inside dictionaries, arrays and stream dictionaries come out as they stand in the file, still encrypted. (The claim one would expect, that they come out decrypted, is refuted for every string.)",
  "all string objects in encrypted documents",
  "All nestings.",
  ["pdfreader/securityhandler.py:decrypt", "pdfreader/parsers/document.py:decrypt_indirect_object_if_necessary"])
p("AES decryption removes padding",
  "A stream encrypted with AES-CBC (128 or 256 bits) is read as its original data followed by the 1 to 16 padding bytes, which are not removed (defect), with Length set to match.",
  "all data",
  "All lengths mod 16.",
  ["pdfreader/securityhandler.py:decrypt_aes128,decrypt_aes256"])
p("Image byte counts are repaired",
  "Before building a picture the raw data is cut or zero-padded to exactly width*height*components bytes and otherwise unchanged.",
  "all sizes, modes, data",
  "All sizes.",
  ["pdfreader/pillow.py:_recover_broken_image_if_necessary"])
p("Image samples are unpacked MSB first",
  "The decoded sample list of an image with b bits per component lists the b-bit big-endian groups of the data, mapped through Decode by index (IndexError if the index is too large). Groups run through the whole data: rows are not taken to start at byte boundaries (a defect for rows of a fractional number of bytes).",
  "all data, bits per component 1..16",
  "All data.",
  ["pdfreader/pillow.py:PILImageMixin.decoded"])
p("Metadata is idempotent",
  "Reading document metadata gives every Info entry: strings that are UTF-8 or dates decoded, every other value unchanged; reading it again gives the same result; the Info dictionary that other readers see is changed in place.",
  "all info dictionaries",
  "In-place mutation vs. repeated calls.",
  ["pdfreader/document.py:metadata"])
p("PDF dates are validated and keep their fields",
  "from_pdf_datetime accepts exactly the texts D:YYYYMMDDHHmmSSOHH'mm' (with any Unicode decimal digits, and one final newline allowed: stricter claims are refuted) and hands the date parser an ISO text with the same fields; anything else raises ValueError.",
  "all strings",
  "All strings.",
  ["pdfreader/utils.py:from_pdf_datetime"])
p("Content parsing terminates",
  "Interpreting any byte string as a page content stream ends after finitely many steps with a list of operators or an exception.",
  "all byte strings",
  "Non-termination is not testable.",
  ["pdfreader/parsers/content.py:objects", "pdfreader/parsers/inlineimage.py"])
p("Parsing does not depend on the block size",
  "Parsing an object, a content stream or a CMap file with any two block sizes gives the same value, the same exception and the same end position; unpacking an object stream registers the same objects with the same values in the same order, and fails in the same way, for every block size.",
  "all byte sequences, offsets and pairs of block sizes; all object streams with First not negative, all counts and offsets in them, all registries",
  "All alignments of tokens and blocks.",
  ["pdfreader/buffer.py", "pdfreader/parsers/base.py"])
p("A font's named encoding is the one used",
  "A font whose Encoding is a dictionary is decoded with its base encoding. A font whose Encoding is a name that Python does not know as a codec is decoded with WinAnsiEncoding, whatever the name: a defect for MacRomanEncoding, StandardEncoding and PDFDocEncoding (proved with a witness), and the documented fallback for unknown encodings never happens.",
  "all encoding names and dictionaries, all strings",
  "All names; depends on the order in which search functions are registered.",
  ["pdfreader/codecs/__init__.py", "pdfreader/codecs/codec.py:Codec.search", "pdfreader/codecs/decoder.py:EncodingDecoder"])
p("Glyph names may spell code points and components",
  "A glyph name 'uniXXXX' stands for the character with that hexadecimal code, and a name made of components joined by underscores, with any suffix after a full stop, stands for the texts of its components, whatever was looked up before. Defect: numbers are also taken with white space around them, a sign or 0x, so that names of no character name one.",
  "all code points below 10000 hex, all lists of components, all suffixes, all lookup histories",
  "All names.",
  ["pdfreader/codecs/codec.py:glyph_name_to_string"])
p("Graphics state operators set exactly their parameter",
  "Executing cm, w, J, j, M, d, ri, i or Tf sets the corresponding graphics state parameter to its operand (or operands) and changes no other parameter, no saved state and nothing on the canvas but the text; after any content with balanced q/Q a parameter has the value it was last set to outside inner q/Q pairs, or its previous value. gs sets exactly the parameters for which the named ExtGState dictionary has a non-null entry; a Font entry (an array whose first element refers to a font, or a reference to such an array) is set unresolved, so that showing a string then raises TypeError.",
  "all operands, states, contents and nestings",
  "Histories of operators are unbounded.",
  ["pdfreader/viewer/pdfviewer.py:SimplePDFViewer", "pdfreader/viewer/graphicsstate.py"])
p("Pictures are handed to PIL with the right mode, size and data",
  "Converting an image to PIL: pictures in DeviceRGB, DeviceCMYK (or their abbreviations) get that mode, their size and exactly width*height*components bytes of their data; JPEG pictures their encoded data; one-bit masks their data, complemented for Decode [1 0]; indexed pictures their palette; inline pictures may use abbreviated keys. Defects: DeviceGray and CalGray become palette pictures (the code looks for DeviceGrey), ICCBased arrays raise IndexError, BitsPerComponent is ignored, inline JPEG pictures raise AttributeError.",
  "all images, sizes and data",
  "All images.",
  ["pdfreader/pillow.py:PILImageMixin", "pdfreader/types/content.py:InlineImage", "pdfreader/types/objects.py:Image"])
p("Permissions are single bits of P",
  "is_printable, is_modifiable and is_extractable tell bits 3, 4 and 5 (counted from 1) of the two's complement representation of P.",
  "all integers P",
  "Infinitely many values, negative ones included.",
  ["pdfreader/securityhandler.py:is_printable,is_modifiable,is_extractable"])
p("A font's text is decoded by its ToUnicode map, else its encoding, else its name",
  "A string shown in a font is decoded (1) by the CMap in the font's ToUnicode stream if that is not empty: when all its codes are mapped, the text is the concatenation of the texts the file's bf sections give, the other bytes going to the font's own encoding or latin-1; (2) else, if Encoding names a predefined CMap, as latin-1 with all zero bytes but the last dropped, because the predefined files map no code to text - a defect for two-byte codes; (3) else by Encoding if it is there; (4) else as WinAnsiEncoding if BaseFont is one of the standard fonts' names (Helvetica-Oblique is misspelt in the list), as latin-1 otherwise and for fonts missing from the resources. A ToUnicode stream that does not parse makes the text fail. Fonts with entries of other types (a name as ToUnicode, a number or array as Encoding) cannot show any text: AttributeError or TypeError.",
  "all fonts, CMap files in any layout, strings and hexadecimal strings",
  "All fonts and all strings; no test corpus has all CMap layouts.",
  ["pdfreader/codecs/decoder.py:_get_cmap_encoding,Decoder,PredefinedCmaps", "pdfreader/codecs/cmaps", "pdfreader/viewer/simple.py:TextOperatorsMixin.decoder"])
p("A document opens and its objects are read back, in any order",
  "Opening a file that has a header, a startxref line and a chain of cross-reference tables gives the version and the newest trailer, and then any sequence of object lookups, repetitions included, gives for every listed id the object standing where the newest listing says - streams with their dictionary and data, Length direct or a reference to a listed integer. If moreover the tables agree with the body, lookups of any ids give the object with that id or null. A document written with any number of revisions reads back as the newest values.",
  "all well-formed files in any layout, all numbers of revisions and objects, all sequences of lookups",
  "Any file, any order and number of lookups over shared mutable state.",
  ["pdfreader/parsers/document.py:RegistryPDFParser.__init__,locate_object,_next_brute_force_object", "pdfreader/registry.py:Registry", "pdfreader/document.py:PDFDocument"])
p("What a lookup gives after other lookups",
  "The objects a document gives depend on the lookups made before, in exactly this way: what was learnt first about an id stays; a lookup of an id that a table lists gives the object at the newest listing; a lookup of another id scans the body from where the last such scan stopped, in file order up to the first cross-reference section, learning every object on the way, and gives null at the end. So in a document with several revisions an updated object looked up for the first time after a lookup of a missing id (a dangling reference) has the value of the oldest revision - a defect - and its newest value otherwise.",
  "all files with a chain of tables, all bodies, all sequences of lookups, any number of revisions",
  "Depends on the whole history of lookups.",
  ["pdfreader/parsers/document.py:RegistryPDFParser.locate_object,brute_force_locate,_next_brute_force_object", "pdfreader/registry.py:Registry.register"])
p("Iterating a viewer over a file gives the text of its pages",
  "SimplePDFViewer over a file, iterated, gives one canvas per page of the page tree, in order, and then stops; the strings of each canvas are the strings shown by the page's content streams joined, each decoded by the font in effect (set by Tf, saved and restored by q/Q), looked up first in the page's own resources and then in those of its ancestors: by the font's ToUnicode CMap, its encoding, or byte by byte.",
  "all documents written as files whose page contents consist of text operators, graphics state parameters and operators without a handler; all page trees, content streams (plain, or encoded by any chain of ASCIIHex, ASCII85, RunLength and Flate filters, or as unpredicted PNG rows), resources and fonts with a CMap, a named, predefined or dictionary encoding with any differences, a standard name, or nothing",
  "It is about whole files: every layer from bytes to text takes part, for arbitrarily large trees and contents.",
  ["pdfreader/viewer/simple.py:SimplePDFViewer", "pdfreader/viewer/pdfviewer.py:PDFViewer", "pdfreader/document.py:PDFDocument", "pdfreader/viewer/resources.py:Resources.from_page"])
p("Files with cross-reference streams and object streams read back, except that compressed objects are never updated",
  "Opening a file whose cross-reference sections are streams chained by Prev gives its version and the trailer entries of the newest stream; then any sequence of lookups, in any order, gives every object written: plain ones, those held in object streams and the streams themselves, and null for other ids, provided no id occurs twice. In general the lookups are exactly those of a small memory machine: in-use rows lead to an object at its newest offset, everything else is found by scanning from the start of the file. So an object kept only in object streams that a later revision replaces is read with its OLDEST value: the claim that lookups give the newest value is false.",
  "all such files, any number of revisions, objects and object streams, any compressor that inflate undoes, all sequences of lookups",
  "Any file, any order and number of lookups over shared mutable state; any compressor.",
  ["pdfreader/parsers/document.py:PDFParser.pdf_trailer,RegistryPDFParser.locate_object,_next_brute_force_object,on_parsed_indirect_object", "pdfreader/registry.py:Registry", "pdfreader/parsers/objstm.py:ObjStmParser", "pdfreader/types/native.py:Stream.filtered"])
p("Streams whose Length is an object no table lists",
  "A stream may give its Length as a reference to an integer object that no cross-reference table lists. If that object is the next one in the file, every lookup - of the stream, of the length, of any other id, in any order, however often - gives what was written: the stream with exactly its data and the integer as Length, or null for ids that are not in the file. If the next object is another one and the stream stands first in the file, looking up the length object never ends (known defect).",
  "every header, every sequence of objects with such streams, every choice of which objects the table lists, every sequence of lookups, every number of allowed steps",
  "Which path a lookup takes (table, scan, nested scan inside a scan, re-scan of the postponed stream) depends on the history of lookups and on the layout of the whole file; the failing case is non-termination, which no test can observe.",
  ["pdfreader/document.py:PDFDocument.locate_object", "pdfreader/parsers/document.py:RegistryPDFParser.locate_object", "pdfreader/parsers/document.py:RegistryPDFParser.next_brute_force_object", "pdfreader/parsers/document.py:RegistryPDFParser.skip_until_next_indirect_object", "pdfreader/parsers/document.py:RegistryPDFParser.on_parsed_indirect_object"])
p("Encrypted documents open with their passwords and read as they were written",
  "Opening a file whose trailer names an Encrypt dictionary, with a password that its handler accepts, gives the version, the trailer, the handler and the Root object; from then on any sequence of lookups, in any order, gives every object of the document as it was before encryption (streams decrypted with the key of their own number and generation, Length being the number of decrypted bytes; dictionaries, arrays, numbers and the Encrypt dictionary itself untouched; with AES the padding stays at the end) and null for ids that are not in the file. In particular a document encrypted with RC4 whose Encrypt dictionary was made from an owner and a user password as the standard describes opens with either of them (with the owner's unless it happens to pass the test for the user's).",
  "all documents without top-level string objects, any number of revisions, all keys, passwords, hash functions with 16-byte results and block ciphers, all sequences of lookups",
  "Any file, any password, any key and any order of lookups; the handler is installed in the middle of opening, after some objects have been read without it.",
  ["pdfreader/document.py:PDFDocument.__init__,encrypt,locate_encrypt_by_ref", "pdfreader/parsers/document.py:RegistryPDFParser.set_security_handler,on_parsed_indirect_object,locate_object", "pdfreader/securityhandler.py:StandardSecurityHandler,StandardSecurityHandlerV4,StandardSecurityHandlerV5,security_handler_factory"])
p("An Encrypt dictionary that no table lists is found at the end of the file",
  "If the trailer's Encrypt reference is in no cross-reference table but the dictionary stands, with its header spelled 'num gen obj', among the last objects before the cross-reference section (not as the first object of all), opening the document finds it by searching backwards from there, and the document opens and reads exactly as if it were listed: handler installed, every stream decrypted, absent ids null. The claim that this holds however the dictionary is written is refuted: with another spelling of its header the document opens with the right handler, yet streams before the dictionary are read as they were encrypted.",
  "all documents whose table leaves out only the Encrypt dictionary, any objects before and after it, all keys, passwords, hashes and ciphers, all sequences of lookups",
  "The search walks backwards over texts of any content and length; where it ends depends on the bytes of every object behind the dictionary, and whether streams come out decrypted depends on which of two searches succeeds first.",
  ["pdfreader/document.py:PDFDocument.__init__,encrypt,locate_encrypt_by_ref", "pdfreader/parsers/document.py:RegistryPDFParser.locate_backwards_from_trailer,next_brute_force_object", "pdfreader/buffer.py:Buffer.prev,read_backward"])
p("The images and forms of a canvas are exactly those the page paints",
  "After rendering a page on a fresh canvas, canvas.inline_images holds the inline images of the content in their order; canvas.images maps a name to an image if and only if the content paints an image XObject of that name with Do, in the order of first painting; canvas.forms maps a name to a canvas if and only if the content paints a form of that name, and that canvas is what the form's own content draws with the form's own resources from the graphics state in effect where it is painted for the first time (forms inside forms are not drawn).",
  "all page contents without operators called navigate or inline_image, all resources, all forms",
  "Any content: any number and order of paintings, repeated names, saved and restored graphics states.",
  ["pdfreader/viewer/simple.py:SimplePDFViewer.on_Do,on_inline_image,FormViewer", "pdfreader/viewer/canvas.py:SimpleCanvas", "pdfreader/viewer/pdfviewer.py:ContextualViewer.notify,render"])
p("Rendering only adds to the canvas",
  "Whatever the content of a page - malformed, with wrong operands, raising in the middle - rendering never removes or changes what was already put on the canvas: strings, text content and inline images are only appended to, images and forms once there keep their value; so what the first operators drew is still there after an error. The claim without exceptions is refuted: an operator called navigate in the content calls the viewer's own method and empties the canvas and the graphics state; in forms even that does nothing.",
  "all contents (valid or not), all resources, all states of canvas and graphics state, all points at which rendering raises",
  "Must hold at every point at which rendering may stop, for every content.",
  ["pdfreader/viewer/simple.py:SimplePDFViewer,TextOperatorsMixin", "pdfreader/viewer/canvas.py:SimpleCanvas", "pdfreader/viewer/pdfviewer.py:ContextualViewer.notify,PDFViewer.after_navigate"])
p("From the file's bytes to everything on the canvas of every page",
  "For a file holding a document, the viewer opened on it has one page per leaf of the page tree, and the canvas of each holds: the strings the page's content shows, each decoded with the font in effect and with the resources nearest in the page tree; the inline images in order; under its name each image XObject the content paints; under its name each form painted, with the strings and inline images of the form's own content decoded with its own resources first. XObjects that leave out the optional Type entry, or have no data, are not seen: the claim without this exception is refuted.",
  "all documents (page trees, resources, contents, fonts, images, forms) written as a file in any way the writer allows",
  "Ranges over all documents and files; crosses the whole program from the reading of bytes to decoded strings.",
  ["pdfreader/viewer/simple.py:SimplePDFViewer", "pdfreader/viewer/pdfviewer.py:PDFViewer", "pdfreader/viewer/resources.py:Resources", "pdfreader/document.py:PDFDocument", "pdfreader/types/objects.py:Page,PageTreeNode,XObject,Form,Image"])
p("Any order of visits gives the same canvases",
  "Any sequence of navigate(n), next(), prev() and render() on a viewer, with exceptions caught, answers as the list of pages says: a page outside the document raises ValueError (below 1) or PageDoesNotExist and leaves the viewer on its page; otherwise the viewer is on the page asked for, and render() gives that page's canvas, the same as a fresh viewer would, however often and in whatever order pages were visited before; iterating afterwards gives the canvases from the current page to the last and stops.",
  "all sequences of commands, all documents whose pages can be enumerated and drawn",
  "Must hold after every history of visits, over caches and graphics state that survive between pages.",
  ["pdfreader/viewer/pdfviewer.py:PDFViewer.navigate,next,prev,iter_pages", "pdfreader/viewer/simple.py:SimplePDFViewer.render,__iter__,__next__"])
p("The canvases do not depend on how the file stores its objects",
  "The canvases of a document's pages are the same, and any order of visits answers the same, whether the file has cross-reference tables, or cross-reference streams and object streams in any number of revisions, or is encrypted (and opened with the user's or the owner's password), or is encrypted with the Encrypt dictionary missing from the cross-reference table.",
  "all documents, all files of these kinds, all passwords, all sequences of visits",
  "Ranges over all documents and over all their representations.",
  ["pdfreader/document.py:PDFDocument", "pdfreader/registry.py:Registry", "pdfreader/parsers/document.py:RegistryPDFParser", "pdfreader/securityhandler.py:SecurityHandlerFactory", "pdfreader/viewer/pdfviewer.py:PDFViewer"])
p("Reading the file block by block does not show",
  "Opening a document and looking up objects, in any order and with any exceptions caught, gives the same results whatever the size of the blocks in which the file is read: those of reading from a file held in memory as a whole. This covers files with tables, with cross-reference and object streams, with unlisted objects and lengths, encrypted files whose Encrypt dictionary the table lists, and what the viewer shows. It requires that the file ends with startxref, a number and %%EOF in this order: otherwise (number after %%EOF) the end of the file may be read twice and the number come out wrong, which is refuted by a concrete file.",
  "all files that end properly and can be opened, all block sizes, all sequences of lookups",
  "Every position of every token relative to block boundaries, backwards reading, saved and restored positions; tests use files of a few blocks.",
  ["pdfreader/buffer.py:Buffer", "pdfreader/document.py:PDFDocument", "pdfreader/parsers/document.py:PDFParser,RegistryPDFParser", "pdfreader/registry.py:Registry"])
p("A document saved by incremental updates is shown as it is now",
  "For a file with any number of appended revisions (cross-reference tables linked by Prev), each of which adds or replaces objects, opening it gives the newest trailer; looking up any objects of the document, in any order and repeatedly, gives the newest value of each; and the viewer, which asks for no other objects, shows for each page of the current page tree the canvas drawn from the newest values, under random access and iteration alike. The same through the buffer for every block size.",
  "all numbers of revisions, all sets of objects added or replaced in each, all documents and page trees, all sequences of lookups and viewer commands, all block sizes",
  "A test follows one or two updates; which old objects remain reachable through newer ones, and that the viewer never asks for an id that the file does not have (which would disturb later lookups, C77), is a statement about every document.",
  ["pdfreader/document.py:PDFDocument", "pdfreader/registry.py:Registry", "pdfreader/viewer/simple.py:SimplePDFViewer", "pdfreader/parsers/document.py:RegistryPDFParser"])
p("Streams whose decode parameters cannot be used have no data, and what follows from that",
  "A compressed stream whose DecodeParms is an array (as the format allows for arrays of filters) or an indirect reference has no decoded data: Stream.filtered is None and no exception is raised there. As a page's content the page can be visited but every rendering raises AttributeError and leaves the canvas empty; as one of several content streams the page cannot even be visited (TypeError); as a font's ToUnicode map no text of that font can be decoded (ParserException); as a cross-reference stream the file cannot be opened (TypeError); as an object stream none of its objects is registered (AttributeError).",
  "all streams, filters arrays beginning with FlateDecode, parameter arrays and references, all documents, histories of the viewer and pages",
  "The exception is swallowed by Python's attribute lookup, far from where its effect shows; a test sees one stream in one role.",
  ["pdfreader/types/native.py:Stream.filtered", "pdfreader/utils.py:cached_property", "pdfreader/filters/flate.py:decode", "pdfreader/viewer/pdfviewer.py:PDFViewer"])
p("Updates that change the kind of cross-reference section cannot be opened",
  "If the newest sections of a file, linked by Prev, are any number of cross-reference tables and the next Prev leads to a cross-reference stream (or to any four bytes other than xref), opening the file raises ParserException; likewise if they are cross-reference streams and the next Prev leads to a table. In particular a file written with cross-reference streams and updated by a revision with a table, or the other way round, cannot be opened, although both parts can.",
  "all files with a header and a startxref, all numbers and contents of sections before the change of kind, all contents of the rest of the file",
  "Tests exercise a sample file of each kind; that no mixed chain of any length opens is a statement about every such file.",
  ["pdfreader/parsers/document.py:PDFParser.pdf_trailer", "pdfreader/parsers/document.py:PDFParser.direct_xref", "pdfreader/parsers/document.py:RegistryPDFParser.__init__"])
p("Free rows of cross-reference tables are ignored, so deleted objects are still found",
  "A file whose tables have any free rows opens with its newest trailer, and looking up any object written in any revision gives the newest value written for its id, whether or not the number is listed as free there or in a newer update: an object that an update deletes is not null but keeps its value. In a file with a single revision, looking up any ids in any order gives the object, or null if there is none, whatever the free rows. The viewer shows every page of such a file, for every block size, as the document of those newest values.",
  "all numbers of revisions, all sets of objects added, replaced or listed as free in each, all values and trailers, all sequences of lookups",
  "A test with one deleted object shows one outcome; that free rows never change any lookup is a statement about all histories.",
  ["pdfreader/parsers/document.py:RegistryPDFParser.locate_object", "pdfreader/parsers/document.py:PDFParser.direct_xref", "pdfreader/types/xref.py:XRef"])
p("Damaged files: opening and lookups return or raise an expected exception, and nothing of the scanner leaks",
  "Whatever bytes a file contains and whatever the password, PDFDocument(file, password) returns a document or raises ParserException, TypeError, ValueError, KeyError, AttributeError, IndexError, AssertionError, NotImplementedError, InvalidData or struct.error - or does not return; the scanner's internal BruteForceRecursion never reaches the caller. The same holds for every lookup made afterwards, in any order, whether earlier ones returned or raised, and after each of them no lookup is left on the scanner's stack. Every exception of the list is raised by some file. (Python's own RecursionError and MemoryError are not considered.)",
  "all byte strings as files, all passwords, all sequences of lookups, all decompressors, hash functions and ciphers",
  "Fuzzing samples byte strings; that no byte string lets an internal exception escape, through nested scanning lookups, is a statement about all of them.",
  ["pdfreader/document.py:PDFDocument.__init__", "pdfreader/parsers/document.py:RegistryPDFParser.locate_object", "pdfreader/parsers/document.py:RegistryPDFParser.next_brute_force_object"])
p("A page's content may be divided into several streams that end in white space",
  "If a page's Contents is an array of streams, each but the last ending in white space, the viewer reads the page as the operators and inline images of all the streams, in order. Without that white space the claim is false: nothing is put between the streams, so the last token of one and the first of the next become one (streams q and Q are read as the operator qQ).",
  "all pages with any number of content streams of any content, stored and encoded in any way the filters undo",
  "Where a producer divides the content is arbitrary: every position between operators, for contents of every length.",
  ["pdfreader/viewer/pdfviewer.py:PDFViewer.after_navigate", "pdfreader/parsers/content.py:ContentParser.objects"])
p("The viewer's annotations are those of the page it is on",
  "After any sequence of navigations (also to pages that do not exist), renderings and changes to canvases, viewer.annotations lists the annotation dictionaries of the current page's Annots, in order, given directly or by reference; it is None if the page has no Annots.",
  "all documents, all histories of a viewer, all annotation arrays",
  "Histories and documents are unbounded.",
  ["pdfreader/viewer/pdfviewer.py:PDFViewer.annotations", "pdfreader/viewer/pdfviewer.py:PDFViewer.current_page"])
p("Objects hidden in hybrid-reference files are found",
  "In a file with cross-reference tables, objects that no table lists in use - in particular those kept in object streams and listed only in the cross-reference stream that XRefStm leads to - are found by lookups like all others, in any order and number of lookups: each id gives its object, other ids give null. The cross-reference stream itself is not consulted.",
  "all files with header, chain of tables and body of objects, object streams and startxref sections, where no id occurs twice; all hybrid-reference files of a writer; all sequences of lookups",
  "Files and lookup sequences are unbounded.",
  ["pdfreader/parsers/document.py:RegistryPDFParser.locate_object", "pdfreader/parsers/document.py:PDFParser.pdf_trailer", "pdfreader/parsers/document.py:RegistryPDFParser.next_brute_force_object"])
p("Encrypted documents with cross-reference streams: what can be looked up",
  "Opening an encrypted document whose sections are cross-reference streams, and any sequence of lookups in it, give the decrypted objects of the body and those held by the decrypted object streams, in any order and number of lookups - as long as every object of the body can be decrypted. An object that cannot be decrypted (a cross-reference stream, which is never encrypted, when the handler uses AES and its data is not a vector and whole blocks long; a string object) stops the search for good: each lookup of an id that is only found behind it, or not at all, raises that object's exception (defect: cross-reference streams must not be decrypted). Even then a document written with one cross-reference stream, encrypted with RC4 or AES, opens, and the viewer shows its pages.",
  "all files with header, chain of cross-reference streams and body of objects, object streams and startxref sections, all handlers and passwords; all documents of a writer; all sequences of lookups",
  "Files, keys and lookup sequences are unbounded.",
  ["pdfreader/parsers/document.py:RegistryPDFParser.locate_object", "pdfreader/parsers/document.py:RegistryPDFParser.next_brute_force_object", "pdfreader/document.py:PDFDocument", "pdfreader/parsers/document.py:PDFParser.indirect_object"])
p("From the file's bytes to its metadata",
  "The metadata of a document has the keys of the newest information dictionary, in its order, whatever was looked up before. ASCII strings are given as text and PDF dates as dates (as text when the date parser refuses them). Defects: UTF-16BE strings are given undecoded, the mark of UTF-8 strings becomes a character, PDFDocEncoding strings with characters beyond ASCII are never given as their text (undecoded, or misread when their bytes happen to be UTF-8), hexadecimal strings and references are given as they are, and the strings of an encrypted document are not decrypted. Without an information dictionary in the trailer the metadata is None; if the trailer's reference leads to no dictionary, reading it raises. All this holds also when the dictionary is inside an object stream of a file with cross-reference streams, and whatever the size of the blocks the file is read in.",
  "all files of a writer with any number of revisions, plain or encrypted, with cross-reference tables or streams and object streams, all information dictionaries, block sizes, and sequences of lookups before",
  "Files, dictionaries and lookup sequences are unbounded.",
  ["pdfreader/document.py:PDFDocument.metadata", "pdfreader/utils.py:from_pdf_datetime", "pdfreader/parsers/document.py:RegistryPDFParser.locate_object"])
p("Damaged content streams are drawn up to the damage",
  "Whatever bytes a page's content has, it is read to its end or up to a place where ParserException, TypeError or KeyError is raised (each happens). Operators and inline images written correctly at the beginning, with white space after them, are handed out first and in order whatever bytes follow; so what they draw is on the canvas afterwards (unless an operator called navigate follows), and if the damage comes right after them, render() raises its exception with the canvas and graphics state they left.",
  "all byte strings as content, all well-formed beginnings, all pages, resources and viewer states",
  "Content and damage are unbounded.",
  ["pdfreader/parsers/content.py:ContentParser.objects", "pdfreader/viewer/pdfviewer.py:PDFViewer.render", "pdfreader/parsers/inlineimage.py:InlineImageParser.inline_image"])
p("From the file's bytes to text_content",
  "Opening a document written as a file and rendering its pages, in any order, gives for every page whose content has no inline image and no string operands besides those shown a text_content that, parsed as a content stream, is the page's own sequence of operators and operands with every string shown replaced by its text in the font in effect - the same texts, in the same order, as canvas.strings.",
  "all documents, pages, fonts, contents and orders of visits",
  "Documents, contents and histories are unbounded.",
  ["pdfreader/viewer/simple.py:TextOperatorsMixin.after_handler,on_Tj,on_TJ,object_to_string", "pdfreader/viewer/pdfviewer.py:PDFViewer.render", "pdfreader/document.py:PDFDocument.__init__"])
p("Pages that cannot be shown do not affect the others",
  "Once a viewer is open, navigate(n) followed by render() gives for each n always the same result, whatever pages were visited before and whether those could be loaded and drawn or not: the page's canvas, the exception that page raises by itself, or the exceptions for page numbers out of range. So in a file some of whose pages are damaged, all others are shown as they should be. The first page is an exception: if it cannot be loaded, the viewer cannot be created.",
  "all documents with any pages damaged, all histories of visits",
  "Documents, kinds of damage and histories are unbounded.",
  ["pdfreader/viewer/pdfviewer.py:PDFViewer.navigate,__init__", "pdfreader/viewer/simple.py:SimplePDFViewer.render,after_navigate"])
p("AES-encrypted documents are shown like the documents themselves, if their streams tell where their data end",
  "A document is encrypted with AES-128 (V 4, AESV2) or AES-256 (V 5, AESV3) and opened with the user's password (AES-256: or the owner's). The reader leaves the padding after the data of every stream. If every stream's first filter knows where its data end (Flate, RunLength, ASCIIHex), the viewer shows for every page exactly what the document holds - as it is now, if it was saved by updates -: texts, inline images, images and forms painted, in any order of visits; and lookups give the document's objects, with padding after their data. Content without a filter is read with the padding too: if it ends in white space nothing is lost, but one operator more may be read; if it does not, its last operator is lost whenever the padding is not white space.",
  "all documents, passwords and keys; all padding lengths; any hash functions and block cipher",
  "Documents, keys and contents are unbounded.",
  ["pdfreader/securityhandler.py:StandardSecurityHandlerV4.decrypt,decrypt_aes128,StandardSecurityHandlerV5.decrypt_aes256", "pdfreader/viewer/simple.py:SimplePDFViewer.render", "pdfreader/parsers/content.py:ContentParser.objects"])
p("Readers that share a file object do not disturb each other",
  "Several documents and viewers may be made on one file object, with whatever block sizes. If they take turns - switching after any number of bytes read, in any order - each gets exactly what it would get alone: what one has got never depends on the others or on where the file position was, it is always the beginning of what it gets by itself, and after enough turns it is all of it; so written documents open, their objects are looked up and their pages drawn as ever. In threads that do not wait for each other this fails for every file: between seek and read another thread may move the position, and other bytes than those asked for are read.",
  "all files, numbers of readers, block sizes, programs run by the readers, schedules and initial positions",
  "Interleavings are unbounded schedules; a test sees a few.",
  ["pdfreader/buffer.py:Buffer._read_forward,_read_backward,_read_head,_read_tail,set_state", "pdfreader/document.py:PDFDocument.__init__"])
p("Typed objects get their class",
  "A dictionary of the document, and any reference to it, is given as an object of the class its /Type names if that is one of the 47 known names (Catalog, Page, Font, Annot, ...), and as one of the base class if there is no /Type or another name; a stream as an image, form, group or other XObject by its /Subtype, as a character map or metadata, or as a plain stream; the entries are unchanged. Defects: font descriptors, beads and object streams get the base class, because the tables misspell their names (and the misspelled names get their classes); a /Type (or an XObject's /Subtype) given as a reference, as PDF allows, is not followed: TypeError is raised for the object.",
  "all dictionaries and streams, all type names, all documents",
  "Dictionaries and names are unbounded.",
  ["pdfreader/types/objects.py:obj_factory,DICT_OBJECTS,STREAM_BASED_OBJECTS,XOBJECTS", "pdfreader/document.py:PDFDocument.build"])
p("deep_obj_by_ref stops at the given depth",
  "deep_obj_by_ref(obj, maxdepth) asks for the object of an indirect object's number, again and again until something else comes: that is returned, or the exception met on the way, if maxdepth is at least the number of steps; with a smaller depth, and in circles, it raises ValueError. With a negative depth nothing stops it in a circle. Defect: it tests for indirect objects, which documents never return, and not for references: given a reference it returns it unresolved, and an object that is a reference is returned as such.",
  "all documents, arguments and depths",
  "Chains and depths are unbounded.",
  ["pdfreader/document.py:PDFDocument.deep_obj_by_ref,obj_by_ref", "pdfreader/types/native.py:IndirectObject"])
p("The code space of a character map",
  "A code belongs to the code space of a character map exactly if, as a number, it lies between the ends of a range of codes of its length; max is the greatest number in any range (ValueError without ranges); as_list gives every code once, in upper case and in the order of texts. Defect: PDF compares codes byte by byte, so that codes of several bytes belong to ranges that do not contain them (<81FF> to <8140>-<9FFC>).",
  "all lists of ranges of hexadecimal codes, all codes",
  "Ranges and codes are unbounded.",
  ["pdfreader/types/cmap.py:CodespaceRanges", "pdfreader/types/cmap.py:Range"])
p("Merging cross-reference tables",
  "A cross-reference table lists, of each kind (free, in use, compressed) and number, the last entry it was given. Merging the table of some entries with the table of others gives exactly the table of all of them, one's own first and the other's last - the same entries in the same order -, so that merging is associative and repeating it changes nothing. Defect: the kinds are kept apart, so a number that the other table frees stays in use.",
  "all lists of entries",
  "Tables are unbounded.",
  ["pdfreader/types/xref.py:XRef.merge,add_entry"])
p("Inline images' properties and filtered data",
  "An inline image's properties (Width, ColorSpace, ...) are the entries of its dictionary, under their full or their abbreviated keys. Its filtered data are the data that were encoded: by no filter, by one, or by any number applied one after another, named in full or abbreviated, under either key; with both keys the full one counts, unless it says nothing (null or an empty array). A name that is no filter raises NotImplementedError. Defects: false and zero under a full key are read as None; with an array of decode parameters, which PDF allows, filtered raises AttributeError.",
  "all image dictionaries, data, filters and chains of filters",
  "Dictionaries, data and chains are unbounded.",
  ["pdfreader/types/content.py:InlineImage", "pdfreader/types/native.py:apply_filter_multi", "pdfreader/filters/__init__.py:apply_filter"])
p("Comparing parsed values",
  "== between two values read from a file (numbers, names, strings, null, references, arrays, dictionaries, nested to any depth) is true exactly if they are the same: the same number however written, the same text or bytes, the same reference, arrays of the same items in the same order, dictionaries with the same items under the same keys in whatever order; two streams are equal exactly if their dictionaries and data are. It is an equivalence relation. The only exception it raises is AttributeError, and values without references are compared without exceptions. Defects: comparing a reference with anything that is neither reference nor stream, from either side and at any depth, raises AttributeError, and so does comparing a stream with anything that is no stream, except that a reference equals a stream whose entries num and gen are its numbers; a name equals a hexadecimal string of the same text, and true equals 1.",
  "all pairs and triples of values, of any size and depth",
  "Values nest without bound.",
  ["pdfreader/types/native.py:Stream.__eq__,__getattr__,IndirectReference.__eq__,Name,HexString,String"])
with open(os.path.join(os.path.dirname(__file__), "..", "properties.jsonl"), "w") as f:
    for x in P: f.write(json.dumps(x) + "\n")
print(len(P))
