{
 "C43": {
  "note": "filters/asciihex.py decode"
 },
 "C44": {
  "note": "filters/ascii85.py decode with CPython a85decode"
 },
 "C45": {
  "note": "filters/runlength.py decode"
 },
 "C46": {
  "status": "proved",
  "note": "Exact behaviour, both directions; the expected claim (conforming streams decode to their data) is refuted for every stream with EOD and for every stream with a self-referring code."
 },
 "C47": {
  "status": "proved",
  "note": "Exact behaviour (C47_right_iff); the expected claim is refuted for every PNG filter type but None, for TIFF prediction and for Colors > 1."
 },
 "C48": {
  "note": "apply_filter_multi over ASCIIHex/ASCII85/RunLength/Flate (zlib as parameter)"
 },
 "C01": {
  "status": "proved",
  "note": "utils.py Buffer; any program over the buffer interface; the refuted theorem is the last sentence of the statement"
 },
 "C02": {
  "note": "utils.py get_state/set_state"
 },
 "C03": {
  "note": "parsers/base.py object(); progress and termination for every input"
 },
 "C15": {
  "status": "proved",
  "note": "exception set; the refuted theorem is the last sentence of the statement"
 },
 "C68": {
  "note": "parsers/viewer content parser"
 },
 "C69": {
  "note": "end position compared on success"
 },
 "C04": {
  "note": "parsers/base.py numeric (also reached through object())"
 },
 "C05": {
  "status": "proved",
  "note": "rounding of long negative literals is part of the statement (refuted theorem)"
 },
 "C06": {
  "note": "any spelling and the canonical printer"
 },
 "C07": {
  "status": "proved",
  "note": "balanced parentheses, escapes, octal, line continuations; every text decided (C07_every_string); deviations from ISO 32000-1 in C07_iso_refuted"
 },
 "C08": {
  "status": "proved",
  "note": "the refuted theorem is the parenthesis of the statement"
 },
 "C09": {
  "note": "S_Syntax.Ser relational grammar (any layout) and the printer of S_Print"
 },
 "C10": {
  "note": "last occurrence wins"
 },
 "C14": {
  "note": "sequence of integers and references"
 },
 "C11": {
  "note": "parsers/base.py _stream with a correct Length; any bytes"
 },
 "C12": {
  "status": "proved",
  "note": "the two refuted theorems are the parenthesis of the statement"
 },
 "C38": {
  "note": "content parser over any layout of S_Syntax"
 },
 "C39": {
  "status": "proved",
  "note": "the refuted theorem shows the proviso (no bordered EI) is needed"
 },
 "C13": {
  "status": "proved",
  "note": "the refuted theorem is the proviso of the statement (TypeError at end of file)"
 },
 "C16": {
  "status": "proved",
  "note": "the refuted theorem shows the proviso (at least 22 bytes) is needed"
 },
 "C17": {
  "note": "parsers/document.py seek_eof, xref_offset"
 },
 "C18": {
  "status": "proved",
  "note": "PDFParser.xref table part; every spelling with the three two-byte line ends"
 },
 "C19": {
  "status": "proved",
  "note": "PDFParser.pdf_trailer (tables and xref streams); cycle part for tables"
 },
 "C20": {
  "status": "proved",
  "note": "XRef.from_stream"
 },
 "C21": {
  "status": "proved",
  "note": "the refuted theorems are the two halves of the statement (the specification's reading fails)"
 },
 "C22": {
  "status": "proved",
  "note": "the first theorem is the general statement, the second the stale-revision witness on a whole file"
 },
 "C23": {
  "note": "Registry.register over any history"
 },
 "C24": {
  "note": "ObjStmParser + register_object_stream"
 },
 "C25": {
  "note": "RegistryPDFParser.locate_object; lookup sessions of any length; scan of the body for files of simple layout (S_Document.IndObj)"
 },
 "C26": {
  "note": "locate_object_by_xref over the sections collected by pdf_trailer"
 },
 "C27": {
  "status": "proved",
  "note": "document.py build/obj_by_ref, obj_factory; the refuted theorems are the last sentence of the statement"
 },
 "C28": {
  "note": "DictBasedObject"
 },
 "C29": {
  "status": "proved",
  "note": "DictBasedObject; the refuted theorems are parts of the statement"
 },
 "C30": {
  "status": "proved",
  "note": "PageTreeNode.pages as a generator; the refuted theorem is the last sentence"
 },
 "C34": {
  "note": "viewer interpreter, pages and forms"
 },
 "C35": {
  "status": "proved",
  "note": "the refuted theorem is the last sentence of the statement"
 },
 "C36": {
  "note": "forms run on the caller's stack"
 },
 "C40": {
  "status": "proved",
  "note": "the refuted theorem is the last sentence of the statement; decoders are parameters here (see C54-C58)"
 },
 "C42": {
  "note": "mode and bracket stack"
 },
 "C31": {
  "status": "proved",
  "note": "The _refuted theorem is the defect named in the statement. Page enumeration is connected to C30 by C31_document_pages. Loading (resources, content) and drawing are parameters, so the theorems hold for any."
 },
 "C33": {
  "status": "proved",
  "note": "The _refuted theorem is the defect named in the statement. Form canvases inside a canvas are values in the model: sharing of those between shallow copies is not modelled."
 },
 "C37": {
  "status": "proved",
  "note": "C37_parent_cycle_hangs is the defect named in the statement."
 },
 "C41": {
  "status": "proved",
  "note": "The _refuted theorems (inline images, strings in property lists) are the exceptions named in the statement."
 },
 "C70": {
  "status": "proved",
  "note": "The statement includes the defect: named encodings unknown to Python decode as WinAnsi (C70_macroman_refuted is the witness)."
 },
 "C52": {
  "status": "proved",
  "note": "Statement includes the lower-case defect, proved for every single-character entry."
 },
 "C53": {
  "status": "proved",
  "note": "Statement includes the two defects, proved for all supplementary characters / all two-unit destinations."
 },
 "C54": {
  "status": "proved",
  "note": "Complete characterisation (Greedy); realignment defect by witness."
 },
 "C65": {
  "status": "proved",
  "note": "C65_rows_refuted is the defect named in the statement."
 },
 "C67": {
  "status": "proved",
  "note": "C67_strict_refuted witnesses the laxity named in the statement. dateutil itself is a parameter."
 },
 "C73": {
  "status": "proved",
  "note": "The _refuted theorems are the defects named in the statement. PIL itself is not modelled: the result is the call made to it."
 },
 "C61": {
  "status": "proved",
  "note": "The _refuted theorems are the defects named in the statement. MD5, SHA-256 and the AES block cipher are universally quantified; RC4 and CBC are written out."
 },
 "C62": {
  "status": "proved",
  "note": "The statement is the actual (defective) behaviour; the _refuted theorems refute the intended one for every string and handler."
 },
 "C63": {
  "status": "proved",
  "note": "C63_padding_refuted: the result never equals the original data."
 },
 "C55": {
  "status": "proved",
  "note": "parsers/cmap.py; limits of the reader are in S_CMapFile.Items; the refuted theorem is the defect named in the statement"
 },
 "C49": {
  "status": "proved",
  "note": "whole of filters/ccittfax.py; the refuted theorem is the last sentence of the statement"
 },
 "C50": {
  "note": "T.6 and the T.4 tables are written independently in S_CCITT"
 },
 "C75": {
  "status": "proved",
  "note": "The _refuted theorems are the defects named in the statement; the 14 predefined files are included byte for byte (D_CMaps) and parsed by the modelled parser inside Coq."
 },
 "C77": {
  "status": "proved",
  "note": "locate_object over any history; the refuted theorem is the negation of history independence"
 },
 "C79": {
  "status": "proved",
  "note": "the property includes the defect; C79_update_refuted is the negation of the claim that compressed objects are updated"
 },
 "C82": {
  "status": "proved",
  "note": "the statement includes the defect; C82_other_spelling_refuted is the negation of the claim for every spelling of the header"
 },
 "C84": {
  "status": "proved",
  "note": "the refuted theorem is the exception (defect) named in the statement"
 },
 "C85": {
  "status": "proved",
  "note": "the refuted theorem is the exception (defect: Type is optional for XObjects) named in the statement"
 },
 "C88": {
  "status": "proved",
  "note": "C88_refuted is the exception named in the statement"
 },
 "C92": {
  "status": "proved",
  "note": "The statement says what happens, including that deletion has no effect (C92_deleted_refuted refutes the expectation that a deleted object is null)."
 },
 "C94": {
  "status": "proved",
  "note": "The statement includes the defect: C94_unseparated_refuted is its witness."
 },
 "C97": {
  "status": "proved",
  "note": "the refuted theorems are the last sentence of the statement; the writer's documents have no object streams of their own (those are covered by C97_sessions_exactly and C97_any_objects)"
 },
 "C98": {
  "status": "proved",
  "note": "the statement describes what the code does, the defects included; C98_encrypted_strings_refuted: encrypted strings are not decrypted"
 },
 "C101": {
  "status": "proved",
  "note": "C101_first_page_refuted is the exception the statement makes for the first page."
 },
 "C102": {
  "status": "proved",
  "note": "C102_last_operator_refuted is the last clause of the statement: content that ends in an operator loses it to the padding."
 },
 "C51": {
  "status": "proved",
  "note": "C51_as_list_chars_refuted is a defect outside the statement: mappings with single characters cannot be listed."
 },
 "C58": {
  "status": "proved",
  "note": "C58_other_items_refuted is the last sentence of the statement."
 },
 "C71": {
  "status": "proved",
  "note": "C71_sloppy_names_refuted is the defect named in the statement."
 },
 "C103": {
  "status": "proved",
  "note": "C103_threads_refuted is the last sentence of the statement."
 },
 "C104": {
  "status": "proved",
  "note": "the refuted theorems are the last sentence of the statement."
 },
 "C105": {
  "status": "proved",
  "note": "C105_document_refuted is the last sentence of the statement."
 },
 "C106": {
  "status": "proved",
  "note": "C106_bytewise_refuted is the last sentence of the statement."
 },
 "C107": {
  "status": "proved",
  "note": "C107_freed_refuted is the last sentence of the statement."
 },
 "C108": {
  "status": "proved",
  "note": "C108_parameters_refuted and C108_false_refuted are the defects of the statement's last sentence."
 },
 "C109": {
  "status": "proved",
  "note": "C109_reference_refuted and C109_kinds_refuted are the defects of the statement's last sentence. Inline images, compared by identity, are not modelled."
 }
}