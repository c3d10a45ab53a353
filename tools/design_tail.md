## 5. Defects found while proving (all stated and proved as theorems)

Reading: raw CR, unknown escapes and octal codes above 255 in literal strings are kept (C07); negative reals beyond 28 digits are rounded (C05); `<%comment` is rejected (C08);
a wrong Length past the end of the file is a TypeError (C12); a stream object without endobj at the end of the file is a TypeError (C13);
failures are TypeError/KeyError as well as ParserException (C15); markers at offset 0 are missed (C17); an entry freed later in the same
table stays in use (C18); /Prev cycles loop for ever (C19); only the first Index pair of xref streams is used and width 0 means "free"
(C21); compressed objects are never found through the xref (C22); build() loops on array cycles and, not lazily, on dictionary cycles
(C27); assignments to and deletions from dictionary objects are not seen (C29); a null kid restarts the page enumeration for ever (C30).

Viewing: below page 1 a plain ValueError (C31); the canvas handed out is emptied in place (C33); unmatched Q drops the state (C35); a
Parent cycle loops for ever (C37); the `"` operator always fails (C40); inline images, and strings in property lists (written without parentheses: `/ActualText (a b)` makes text_content unparsable), do not survive text_content (C41).

Filters: LZW with EOD decodes to nothing (C46); predictors are not applied (C47); CCITT parameters (C49).

Text: lower-case codes, surrogates, ranges of two UTF-16 units, codes of more than two bytes (C52-C54); cidchar/notdefchar sections with
numbers make the whole CMap unreadable (C55); codecs' tables disagree with their decoders at the listed bytes (C57); any encoding name
decodes as WinAnsi (C70); predefined CMaps map nothing, `Helvetica-Qblique` (C75).

Encryption: ID as literal strings, direct Encrypt dictionary, unsigned P (C61); strings never decrypted (C62); AES padding kept (C63).
Object streams: an updated compressed object is seen with its oldest value (C79); a stream whose unlisted Length object is not the next
one makes lookups loop for ever (C80); an unlisted Encrypt dictionary whose header is spelled unusually is found too late, and streams
before it are read undecrypted (C82).
Images: DeviceGray as palette, ICCBased, row padding (C65, C73).  Metadata: Info changed in place (C66), Unicode digits in dates (C67).

Viewer: an operator called `navigate` empties the canvas (C84); XObjects without the optional Type are not seen (C85); nested forms are not
drawn (C83).  A `gs` dictionary's Font entry stays an unresolved reference, and the next Tj fails (C72).

Swallowed exceptions: a compressed stream whose DecodeParms is an array or a reference has filtered = None, silently (C90).  A resource
kind called `self` makes the page unreachable (C37_kind_named_self).

Chains: a Prev chain mixing tables and cross-reference streams in either order cannot be opened (C91).  An object that an update deletes is still found (C92).  Damaged files raise nine kinds of exceptions besides ParserException (C93).  Content streams of a page are joined without white space (C94).

Encryption and cross-reference streams: after opening, the scan also decrypts the cross-reference streams, which are never encrypted.
With AES this raises ValueError whenever such a stream is not 16 + 16n bytes long, and the scan never gets past it: ids that are absent
from the file, and compressed objects behind it, raise ValueError for ever (C97).

- C98: metadata strings in UTF-16BE, PDFDocEncoding (beyond ASCII) and hexadecimal form are not decoded, references are not followed, and strings of encrypted documents are shown encrypted.

A viewer cannot be created for a document whose first page cannot be loaded (C101).

Glyph names in bfrange arrays raise ValueError or give a wrong character (C53); CMap mappings with single bfchar entries cannot be
listed (C51); pictures without BitsPerComponent raise an error when their rows are unpacked (C65); an empty Filter list raises
IndexError when a picture is converted (C73).

Glyph names like `uni 041` or `u-0041` are taken for hexadecimal numbers (C71); items of Differences other than names raise errors when
text is decoded (C58).

In AES-encrypted documents the padding is read as part of the data: an unfiltered content stream that ends in an operator loses it, so the last string shown may be missing (C102).

Encrypted documents that rely on the defaults for StmF, StrF and CF, or list a crypt filter with method None, cannot be opened (C61); fonts
whose ToUnicode is a name cannot show text (C75).

Documents that share a file object can be used in turns, but not from threads (C103).

Inline images are written in RFC 1924 base 85 (Python's b85encode), labelled ASCII85Decode, and images without filter get one called None (C41). The class tables misspell FontDescriptor, Bead and ObjStm, and a /Type given as a reference raises TypeError (C104).

deep_obj_by_ref tests for IndirectObject instead of IndirectReference, so that it resolves nothing (C105).

CodespaceRanges compares codes as numbers, not byte by byte (C106).

XRef.merge keeps freed numbers in use (C107; nothing calls it); len() of a table raises TypeError, as its __len__ is a property (read in the code, not modelled).

Inline images: `filtered` raises AttributeError when DecodeParms is an array, and properties that are false or zero under their full keys are read as None (C108).

IndirectReference.__eq__ and Stream.__eq__ do not check the other's type: `ref == None`, and `None == ref`, raise AttributeError, also inside lists and dictionaries (C109).

## 6. Mutation testing

`tools/mutate.py` applies realistic edits to a scratch copy of the model and rebuilds; `seeded/LOG.jsonl` has one line per attempt with
the definition, the edit, the claim it breaks, the proofs that failed and what was tightened when a mutant survived.
