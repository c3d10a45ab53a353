{
 "C01": [
  "buffer.py as concrete interpreter",
  "simulation by induction on programs; the discipline under which it holds is a flag computed along the run; the wrong byte outside it is a witness"
 ],
 "C02": [
  "buffer.py, get_state/set_state",
  "same simulation, restoring a saved cursor"
 ],
 "C03": [
  "base.py",
  "weakest-precondition calculus (L_ParserWP), strong induction on the remaining bytes"
 ],
 "C04": [
  "base.py numeric",
  "independent grammar `IntText`, induction on digits"
 ],
 "C05": [
  "base.py numeric, Decimal",
  "grammar `RealText`; rounding beyond 28 digits by witness"
 ],
 "C06": [
  "base.py name",
  "grammar `NameText`"
 ],
 "C07": [
  "base.py string, utils.pdf_escape_string",
  "grammar `StrText` (nesting, escapes, octals, what else the library accepts), complete by C07_every_string (induction over the text); ISO reading `IsoStr`: agreement C07_iso, the three deviations C07_iso_refuted"
 ],
 "C08": [
  "base.py hexstring, HexString",
  "grammar `HexBody`"
 ],
 "C09": [
  "base.py, all of object()",
  "grammar `Ser` for values of any nesting; mutual induction"
 ],
 "C10": [
  "base.py dictionary",
  "`dict_of` fold over entries"
 ],
 "C11": [
  "base.py _stream",
  "grammar `StreamText`"
 ],
 "C12": [
  "base.py _stream recovery",
  "first-occurrence argument on the window"
 ],
 "C13": [
  "document.py indirect_object",
  "grammar `IndObj`"
 ],
 "C14": [
  "base.py numeric_or_indirect_reference",
  "lookahead undone: `runs` with restored position"
 ],
 "C15": [
  "base.py",
  "exception set carried by the wp calculus"
 ],
 "C16": [
  "document.py pdf_header",
  "loop invariant of the sliding window"
 ],
 "C17": [
  "document.py seek_eof, xref_offset",
  "loop invariant of the backward window"
 ],
 "C18": [
  "document.py direct_xref, xref.py",
  "grammar `TableText`, induction on subsections and entries"
 ],
 "C19": [
  "document.py pdf_trailer, prev loop",
  "induction on the decreasing offsets; the cyclic witness never ends for any fuel"
 ],
 "C20": [
  "xref.py from_stream",
  "row arithmetic, induction on rows"
 ],
 "C21": [
  "xref.py from_stream",
  "same, exact behaviour for width 0 and several ranges"
 ],
 "C22": [
  "locate_object_by_xref",
  "compressed entries never consulted: equality of runs"
 ],
 "C23": [
  "registry.py",
  "invariant over histories of registrations"
 ],
 "C24": [
  "objstm.py, registry.py",
  "induction over the listed objects"
 ],
 "C25": [
  "RegistryPDFParser.locate_object, brute force scan",
  "invariant over histories of lookups; induction over the body of the file"
 ],
 "C26": [
  "locate_object_by_xref",
  "induction over the chain of tables"
 ],
 "C27": [
  "document.build, objects.py",
  "measure on array nesting; non-termination for every fuel on cycles; mutual induction over the resolved object for lazy=False, with a rank on references (P_Deep.v)"
 ],
 "C28": [
  "DictBasedObject",
  "invariant over histories of reads"
 ],
 "C29": [
  "DictBasedObject",
  "invariant over histories of reads and writes"
 ],
 "C30": [
  "PageTreeNode.pages",
  "induction on trees; never-ending witness"
 ],
 "C31": [
  "pdfviewer.navigate/next/prev",
  "state machine over histories"
 ],
 "C32": [
  "CanvasIterator, PagesIterator",
  "induction on remaining pages"
 ],
 "C33": [
  "render, canvas cache",
  "heap invariant over histories"
 ],
 "C34": [
  "graphicsstate.py",
  "induction on balanced operator lists"
 ],
 "C35": [
  "graphicsstate.py",
  "case analysis plus C34"
 ],
 "C36": [
  "before_Do/after_Do",
  "C34 on the form's content"
 ],
 "C37": [
  "resources.py",
  "induction on the ancestor chain"
 ],
 "C38": [
  "content.py",
  "grammar of operator lists, induction"
 ],
 "C39": [
  "inlineimage.py",
  "grammar, first-occurrence argument"
 ],
 "C40": [
  "simple.py",
  "fold over operators"
 ],
 "C41": [
  "simple.py object_to_string, utils",
  "printer/parser round trip; base 85 read back by a relation (digits as numbers), for the data of inline images (P_ImageText)"
 ],
 "C42": [
  "simple.py on_BT/on_ET",
  "invariant"
 ],
 "C43": [
  "asciihex.py",
  "encoder as spec, induction"
 ],
 "C44": [
  "ascii85.py",
  "encoder as spec, base-85 arithmetic"
 ],
 "C45": [
  "runlength.py",
  "encoder as spec, induction"
 ],
 "C46": [
  "lzw.py",
  "code streams as spec; table invariant; length invariant for self-referring codes"
 ],
 "C47": [
  "predictors.py",
  "PNG filters as spec; rows of equal length"
 ],
 "C48": [
  "native.apply_filter_multi, filters/__init__.py",
  "induction on chains"
 ],
 "C49": [
  "ccittfax.py",
  "decoder invariant over bits"
 ],
 "C50": [
  "ccittfax.py",
  "T.6 coding relation as spec; simulation bit by bit; existence of codes"
 ],
 "C51": [
  "types/cmap.py",
  "range algebra"
 ],
 "C52": [
  "types/cmap.py",
  "case analysis on entries"
 ],
 "C53": [
  "types/cmap.py",
  "UTF-16 arithmetic"
 ],
 "C54": [
  "CMAPDecoder",
  "greedy decoding relation, induction"
 ],
 "C55": [
  "parsers/cmap.py",
  "grammar of CMap files in any layout; induction over chunks"
 ],
 "C56": [
  "codec.py",
  "induction; finite sweep over tables"
 ],
 "C57": [
  "codecs tables",
  "finite sweep lifted by lemma"
 ],
 "C58": [
  "differences.py",
  "fold semantics"
 ],
 "C59": [
  "codec.py cache",
  "cache invariant over histories"
 ],
 "C60": [
  "securityhandler.py RC4",
  "XOR involution, key arithmetic"
 ],
 "C61": [
  "securityhandler.py",
  "the standard's algorithms as spec; composition"
 ],
 "C62": [
  "securityhandler.decrypt",
  "case analysis"
 ],
 "C63": [
  "securityhandler.py AES-CBC",
  "CBC inverse for any block cipher"
 ],
 "C64": [
  "pillow.py",
  "list arithmetic"
 ],
 "C65": [
  "pillow.py decoded",
  "bit groups, induction"
 ],
 "C66": [
  "document.metadata",
  "fold over Info entries"
 ],
 "C67": [
  "utils.from_pdf_datetime",
  "exact language of the regular expression"
 ],
 "C68": [
  "content.py",
  "wp calculus"
 ],
 "C69": [
  "buffer.py, base.py, content, cmap and objstm parsers",
  "C01 applied to two block sizes for parsers that never leave a forward session (weakest preconditions); object streams, which jump, through the session calculus of C88 (P_StreamBlocks)"
 ],
 "C70": [
  "codecs/__init__.py, codec.py",
  "case analysis on names"
 ],
 "C71": [
  "codec.py glyph names",
  "string lemmas and C59"
 ],
 "C72": [
  "pdfviewer.py operators",
  "case analysis; induction on balanced lists"
 ],
 "C73": [
  "pillow.py, content.py",
  "case analysis over colour spaces and filters"
 ],
 "C74": [
  "securityhandler.py",
  "bit arithmetic"
 ],
 "C75": [
  "codecs/decoder.py",
  "selection by cases; C54/C55 for the text; the predefined files through a checked lexer"
 ],
 "C76": [
  "open_document, locate_object",
  "invariant over the registry and parser state along the session; a document writer shows every document can be so written"
 ],
 "C77": [
  "locate_object, brute-force scan, registry",
  "refinement of a small memory machine, then a closed form for written documents by induction over the session"
 ],
 "C78": [
  "the whole viewer, with lookups as a function (M_App.v); composed with open_document and lookups from file bytes",
  "composition of C76, C27-C33, C38, C56, C70, C75 and an induction over the operators; bounds on recursion by an 'eventually' modality"
 ],
 "C79": [
  "open_document, session, lookups with xref streams and object streams (M_Document.v); writer in S_ModWrite.v",
  "symbolic execution of opening and of the scan; an invariant relating registry and scan position to the memory machine of S_Modern.v; the writer is shown to produce such files by induction over revisions; the refuted theorem by a two-revision file"
 ],
 "C80": [
  "registry parser: locate_object, brute_force, next_brute_force (task stack), skip_until_next, length hook",
  "S_Length gives the shape of such file bodies (LenBody) and an independent writer (items); invariant over the sequence of lookups: the scan position stands at a LenBody suffix, everything before it is registered; nested scan lemma for the postponed stream; induction over the body and over the list of ids. The hanging case by induction on the step bound."
 ],
 "C81": [
  "PDFDocument.__init__ with encryption (M_Secure: open_pdf, locate_encrypt, locate_backwards), on top of M_Document and M_Crypto",
  "L_Sealed repeats the lookup invariant of C76 for any decryption that maps the objects in the file (raw) to the document's (clear): registered values are clear ones, the scan stands at a suffix of the body; the Encrypt dictionary is the only object read before the handler exists and decryption leaves it alone; S_Sealed says what encrypting a document means; combined with C60, C61, C63 and the writer of C76."
 ],
 "C82": [
  "the backwards search from the cross-reference section (M_Secure.v locate_backwards) over files ending in any objects",
  "induction over the objects behind the dictionary (each step of the search moves one endobj back), then the theorem for encrypted documents with any way of finding the dictionary; a written file as instance; a computed counterexample for other spellings"
 ],
 "C83": [
  "SimplePDFViewer.on_Do, on_inline_image, FormViewer, canvas (M_Viewer page_Do, run, render)",
  "S_Canvas says which items of a content paint what; invariant over the content list relating the canvas to the items run so far; a form's canvas is characterised by the state reached before its first painting"
 ],
 "C84": [
  "all operator handlers, render, Do with forms (M_Viewer)",
  "a preorder on canvases (S_Canvas grows) that every handler respects in its result and in its error state, lifted through run and render; refuted by the internal method names reachable as operators"
 ],
 "C85": [
  "opening the file, lookups, building objects, page tree, resources, content parser, viewer, forms, fonts (M_Document, M_Objects, M_App, M_Viewer, M_Nav)",
  "S_Page says what a page draws from the document's objects alone; L_Page/L_PageDraw relate the built, lazily resolved objects to it and run the content; composed with C76 for the bytes"
 ],
 "C86": [
  "PDFViewer.navigate/next/prev/iter, render (M_Nav)",
  "induction over the command sequence with the reachable-state invariant of C31-C33"
 ],
 "C87": [
  "as C85 with xref streams, object streams, decryption, brute-force lookup",
  "C85 over the lookups, composed with C79, C81 and C82"
 ],
 "C88": [
  "Buffer with its blocks, offsets, saved states (M_Buffer) under every program of M_Parser and M_Document",
  "a simulation between the two interpreters of parser programs (C01) needs the program to move only forwards between jumps, or backwards before its first forward step: L_Blocks* prove this discipline for every parsing and lookup program by a weakest-precondition logic over visited positions; P_Blocks composes it with C76, C79, C80, C81, C85"
 ],
 "C89": [
  "open_document, lookups (M_Document, M_Prog), build, page tree, resources, viewer (M_Objects, M_App, M_Nav, M_Viewer) over files of any number of revisions (S_Write)",
  "C76_written_documents for the lookups; C85_viewer is proved over lookups that answer only ids the document has (all others raise the uncatchable OutOfFuel), so the viewer theorem also says that no other id is asked for; C88 for the block-wise buffer"
 ],
 "C90": [
  "Stream.filtered as seen through the attribute lookup (M_Document.if_none, M_Decoder.filtered_of, M_App.page_stream/part/app_draw), xref_from_stream, register, show_text",
  "case analysis on the filter list and parameters gives the swallowed AttributeError; each user is then followed: C31_navigate for any history of the viewer, C75_tounicode_broken for fonts"
 ],
 "C91": [
  "pdf_trailer, direct_xref, the trailer loops over Prev, open_document (M_Document)",
  "S_Mixed gives the chains up to the change of kind; C91_no_table, C91_tables_then_stream and C91_streams_then_table by induction on the chain (the sections before the change are read as in C76 and C79); C91_table_update and C91_stream_update for written files (S_Write, S_ModWrite)"
 ],
 "C92": [
  "xref tables, the lookup over trailer.xrefs, open_document (M_Document)",
  "S_Freed is a writer of files whose tables mix free rows and in-use rows; C92_free_rows by induction on the updates through C76_listed_objects, C92_deleted_refuted from it, C92_written_once through C76_any_objects"
 ],
 "C93": [
  "open_pdf, locate_object, locate_encrypt, the whole parser, filters, CCITT decoder and security handlers (M_Parser, M_Document, M_Filters, M_CCITT, M_Crypto, M_Secure)",
  "S_Raises lists the exceptions and defines sequences of lookups; a program logic over all functions (L_Raises, L_RaisesP, L_RaisesD, L_RaisesS) shows by induction that each one leaves the lookup stack as it was, restores only saved states and raises only listed exceptions, BruteForceRecursion only under a non-empty stack; the converse by ten witness files"
 ],
 "C94": [
  "page_stream, content_items (M_App), the content parser (M_Parser)",
  "S_Split says what the parts are; texts of content are closed under appending once they end in white space (mutual induction over the syntax), then C38's parser theorem; the refutation is a two-stream page"
 ],
 "C95": [
  "annotations (M_App), navigation (M_Nav), build (M_Objects)",
  "the invariant of reachable viewers (P_Nav) with C27's building of values"
 ],
 "C96": [
  "pdf_trailer, locate_object, brute_force (M_Document)",
  "the scan and lookup lemmas of C79 (L_Modern), generic in the sections read, with the opened state of C76; a hybrid writer (S_Hybrid) meets the hypotheses"
 ],
 "C97": [
  "open_pdf, locate_encrypt, locate_object, brute_force, decrypt_object (M_Secure, M_Document, M_Crypto)",
  "a memory machine whose entries may raise (S_Locked), simulation lemmas in L_Locked for the scan and the lookup, opening as in C79 and C81, an invariant for blocked ids; a writer meets the hypotheses (both ways); pages: objects read up to the padding of their streams (Keeps), whichever way the cross-reference stream goes (P_LockedPages)"
 ],
 "C98": [
  "read_metadata (M_Metadata) over locate_object and open_pdf (M_Document, M_Secure), meta_pass (M_Meta)",
  "composition of C76 and C81 (any lookups before) with C66 and C67; UTF-8 facts (lead bytes, lengths) for the encodings that are not read; C79 and C80 for the other kinds of files; C88's simulation for the buffer"
 ],
 "C99": [
  "content_run, content_items, app_draw (M_App), object in the content flavour (M_Parser), run (M_Viewer)",
  "induction over the well-formed beginning (Then, with an arbitrary tail) for the generator; exceptions from the weakest preconditions of C68; C84 for the canvas"
 ],
 "C100": [
  "open_document, locate_object, app_draw, run (M_Document, M_App, M_Viewer)",
  "C85's viewer over a document, with C41's round trip of the operators written applied to the run of each page"
 ],
 "C101": [
  "navigate, after_navigate, render_nav (M_Nav) over app_draw (M_App)",
  "invariant over histories: the pages and canvases cached are right, the viewer's own canvas is not cached; C85 for the canvases"
 ],
 "C102": [
  "open_pdf, decrypt_object (M_Secure, M_Crypto), app_draw (M_App)",
  "what padding does to each object (Keeps); every notion of S_App/S_Page is preserved by it; C81, C85, C100 for the document as read; C38 for content without a filter"
 ],
 "C103": [
  "Buffer with the file position explicit: io programs of seek/read (M_Device); users take turns, or race",
  "every io program of the buffer seeks before it reads, so its result is that of M_Buffer wherever the position is; induction on the schedule and on the program; C88 for documents and viewers"
 ],
 "C104": [
  "build, obj_factory and the class tables (M_Objects)",
  "from C27_build; an independent list of the type names; case analysis of the factory for compound types"
 ],
 "C105": [
  "deep_obj_by_ref over any lookup function, and over the document's (M_DeepRef)",
  "chains as an inductive relation, circles as a coinductive one; induction on the chain, the depth and the fuel"
 ],
 "C106": [
  "CodespaceRanges (M_Codespace), over the ranges of M_CMap",
  "induction on the ranges; C51 for the codes of one range; a witness for the comparison by bytes"
 ],
 "C107": [
  "XRef.merge (M_Merge) over add_entry (M_Document)",
  "folds of dictionary updates, commuted; a relation for the last entry of a kind and number"
 ],
 "C108": [
  "InlineImage's properties and filtered (M_Inline) over apply_filter_multi (M_Document, M_Filters)",
  "the two keys are either one; then C48's chains (decoded_filtered) and C90's case of an array"
 ],
 "C109": [
  "== of Python on parsed values (M_Equal): __eq__ of Stream and IndirectReference, comparisons of int/Decimal, str, bytes, list, dict",
  "a relation for being the same; induction on values; pigeonhole for the keys of dictionaries; scaling by powers of ten for numbers"
 ]
}