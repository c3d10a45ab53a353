# Formal model of pdfreader in Rocq (Coq 8.16.1)

## 1. Approach

The Python code is read as text and transcribed into small total Gallina functions, branch by
branch, with exceptions as values (`exn`), unbounded `Z` for Python ints, `list Z` for
bytes/str (code points), association lists for dicts.  Python loops become recursion on explicit
fuel; running out of fuel is the special exception `OutOfFuel`, never caught by the modelled
`try/except`, and each theorem either excludes it (termination theorems) or states the fuel bound.

Parsers are written once in a small free monad of buffer operations (`current`, `next`, `prev`,
`reset`, `get_state`, `set_state`, plus user state for the registry; `M_Prog.v`).  The monad has two
interpreters: the *concrete* one (`crun`, `M_Buffer.v`) is `pdfreader/buffer.py` line by line (block
loading and all), the *abstract* one (`arun`) is a plain cursor over the file.  A simulation theorem
(valid for every program, C01/C02) relates them, so parser theorems proved on the plain cursor carry
over to the buffered code for every block size (C69).

Layout of `/verif/rocq/theories`:

* `M_*.v` models: definitions only, each citing the file and lines in /repo it transcribes;
* `D_*.v` data generated from /repo by `tools/gen_*.py` (glyph lists, encodings, CMap files, CCITT codes);
* `S_*.v` small specifications, written without reference to the code (textual grammars, encoders, ...);
* `L_*.v` lemmas;
* `P_*.v` property theorems `Cxx_*`, `Print Assumptions` for each, and `Example`s showing that
  non-trivial concrete cases meet the hypotheses.

Where a claim one would expect of a PDF reader is false of the code, the theorem is named
`Cxx_..._refuted` (it proves the negation: a witness, or - where possible - the wrong behaviour for
*every* input of the kind), and the property is restated as what the code really does.

## 2. Trusted base

* Coq 8.16.1's kernel (including its VM, used for finite computations: `vm_compute`; coqchk
  re-checks them without the VM).
* `Print Assumptions` says **"Closed under the global context"** for every theorem in the manifest: no axioms,
  neither own nor of the standard library, are used.  (The `library_axioms` listed by vcheck, all in
  `Coq.ssr.ssrunder`, are module parameters of the loaded ssreflect plugin library; no theorem depends on them.)
* No functors, module types, `Admitted`, `Variable`/`Hypothesis` outside sections, disabled checks or plugins.
  Section variables become universally quantified premises of the theorems (e.g. `inflate`, `md5`, `aes`).
* The transcription itself: that the `M_*.v` definitions behave as the cited Python lines do under CPython 3.
  It is done by reading; seeded mutations (`seeded/LOG.jsonl`) test that the theorems notice changes of it.
* The parts of CPython and of libraries that are modelled as functions ("environment"): int(), bytes.fromhex,
  str.split/strip/upper, slices, struct.pack, bytes.decode (UTF-8), re (two patterns), Decimal (construction and unary
  minus with a 28-digit context), bitarray, dict/OrderedDict, array('b'), base64.a85decode.
* Environment left as parameters (theorems hold whatever they do): zlib (`inflate`), hashlib.md5,
  Crypto's SHA256 and AES block cipher, dateutil's parser, PIL (calls are described, not run), `codecs.lookup` (which names
  Python knows, what it decodes them to).

## 3. What is modelled, and what is not

| file of /repo/pdfreader | model | not modelled |
|---|---|---|
| buffer.py | M_Buffer.v (all of Buffer), M_Device.v (the same with the file position explicit) | `last_block_size`, `offset`, `stack` (never read) |
| parsers/base.py | M_Parser.v | logging, exception texts; `spaces()` (unused) |
| parsers/document.py, parsers/objstm.py | M_Document.v | logging; `body()` enumeration helpers not used by PDFDocument |
| parsers/content.py, parsers/inlineimage.py | M_Parser.v | - |
| parsers/cmap.py | M_CMapParser.v | logging |
| registry.py, types/xref.py | M_Document.v, M_Merge.v | `begin/end` offsets, repr/len |
| types/native.py | M_Document.v (`filtered`), M_Filters.v, M_CMap.v, M_Equal.v | repr helpers |
| types/objects.py, document.py (build, obj_by_ref, deep_obj_by_ref, pages) | M_Objects.v, M_DeepRef.v | subclass specific properties without logic; StructTree classes behave as dictionaries |
| types/cmap.py | M_CMap.v, M_Codespace.v | `__repr__` |
| types/content.py, pillow.py | M_Image.v, M_Inline.v, M_Viewer.v | PIL itself |
| types/filestructure.py, types/constants.py | as far as used (M_Document.v, D_*.v) | - |
| filters/* | M_Filters.v, M_CCITT.v | zlib (parameter); dct, jbig2, jpx (raise or return the data: modelled in apply_filter) |
| codecs/* | M_Codec.v, M_Decoder.v, D_Glyphs.v, D_PSNames.v, D_CMaps.v | `codecs` module of Python (parameter) |
| securityhandler.py | M_Crypto.v | md5, SHA256, AES blocks (parameters); RC4 and CBC are concrete |
| document.py (metadata), utils.py | M_Meta.v, M_Text.v | dateutil (parameter) |
| viewer/* | M_Viewer.v, M_Nav.v | - |
| document.py (constructor, encryption set-up), parsers/document.py (backwards search) | M_Document.v (open_document), M_Crypto.v, M_Secure.v | - |

General simplifications (also in the comments of the definitions):

* Python's recursion limit (RecursionError), memory limits, CPython's 4300-digit limit of int() and Decimal's Emin/Emax are
  ignored; logging has no effect.
* Consecutive evaluations of `self.current` without a move in between are one read.
* A real file: `seek` to a negative offset behaves as in buffer.py's own tests (0); OSError is not modelled.
* M_Objects.v takes `locate_object` as a function `H` from ids to results: C25 (lookup stability within a session) is what
  justifies it.  Values handed out by dictionary objects are immutable in the model (a caller mutating a returned list in place is
  out of scope); `build(stream, lazy=False)` rebinding the `dictionary` of a stream
  object the caller passes in directly (not by reference) is not modelled.
* Graphics states are copied by value (deepcopy of parameter values is identity in the model).
* Canvases are heap objects (M_Nav.v); form canvases and images inside them are values.

## 4. Plan and result per property

Generated from the manifest; the statements are in properties.jsonl.

| id | property | modelled | how proved | status, theorems |
|---|---|---|---|---|
| C01 | Buffering is transparent | buffer.py as concrete interpreter | simulation by induction on programs; the discipline under which it holds is a flag computed along the run; the wrong byte outside it is a witness | proved: `C01_buffer_transparent`, `C01_forward_use_transparent`, `C01_two_way_use_transparent_refuted` |
| C02 | get_state/set_state is an exact undo | buffer.py, get_state/set_state | same simulation, restoring a saved cursor | proved: `C02_restore_is_exact_undo`, `C02_later_reads_unaffected` |
| C03 | Object parsing terminates | base.py | weakest-precondition calculus (L_ParserWP), strong induction on the remaining bytes | proved: `C03_object_terminates` |
| C04 | Integer literals are exact | base.py numeric | independent grammar `IntText`, induction on digits | proved: `C04_integer_literals`, `C04_every_integer`, `C04_numeric` |
| C05 | Real literals are exact | base.py numeric, Decimal | grammar `RealText`; rounding beyond 28 digits by witness | proved: `C05_real_literals`, `C05_every_decimal`, `C05_long_negative_refuted` |
| C06 | Names round-trip | base.py name | grammar `NameText` | proved: `C06_names_any_spelling`, `C06_names_round_trip`, `C06_every_text` |
| C07 | Literal strings round-trip | base.py string, utils.pdf_escape_string | grammar `StrText` (nesting, escapes, octals, what else the library accepts), complete by C07_every_string (induction over the text); ISO reading `IsoStr`: agreement C07_iso, the three deviations C07_iso_refuted | proved: `C07_iso`, `C07_iso_refuted`, `C07_every_string`, `C07_strings_any_spelling`, `C07_library_escape_round_trip`, `C07_octal_round_trip` |
| C08 | Hexadecimal strings round-trip | base.py hexstring, HexString | grammar `HexBody` | proved: `C08_hex_strings`, `C08_hex_decodes`, `C08_comment_first_refuted` |
| C09 | Composite objects round-trip | base.py, all of object() | grammar `Ser` for values of any nesting; mutual induction | proved: `C09_any_layout`, `C09_print_parse` |
| C10 | Dictionary keys: the last duplicate wins | base.py dictionary | `dict_of` fold over entries | proved: `C10_last_duplicate_wins` |
| C11 | Streams with a correct Length are returned verbatim | base.py _stream | grammar `StreamText` | proved: `C11_correct_length_verbatim` |
| C12 | Streams with a wrong Length are recovered | base.py _stream recovery | first-occurrence argument on the window | proved: `C12_wrong_length_recovered`, `C12_length_past_eof_refuted`, `C12_trailing_eol_refuted` |
| C13 | Indirect objects round-trip | document.py indirect_object | grammar `IndObj` | proved: `C13_indirect_objects`, `C13_every_value`, `C13_every_stream`, `C13_missing_endobj_at_eof_refuted` |
| C14 | Integers and references are told apart | base.py numeric_or_indirect_reference | lookahead undone: `runs` with restored position | proved: `C14_integers_and_references` |
| C15 | Parse failures are confined to known exceptions | base.py | exception set carried by the wp calculus | proved: `C15_object_exceptions`, `C15_only_parser_exception_refuted` |
| C16 | Header lookup | document.py pdf_header | loop invariant of the sliding window | proved: `C16_header_sound`, `C16_header_found_iff`, `C16_header_missing`, `C16_short_file_refuted` |
| C17 | startxref lookup | document.py seek_eof, xref_offset | loop invariant of the backward window | proved: `C17_startxref_number`, `C17_no_eof`, `C17_no_startxref` |
| C18 | Cross-reference tables round-trip | document.py direct_xref, xref.py | grammar `TableText`, induction on subsections and entries | proved: `C18_xref_table`, `C18_every_table`, `C18_freed_later_refuted` |
| C19 | Following /Prev terminates | document.py pdf_trailer, prev loop | induction on the decreasing offsets; the cyclic witness never ends for any fuel | proved: `C19_chain_collected`, `C19_cycle_refuted`, `C19_decreasing_terminates` |
| C20 | Cross-reference streams decode | xref.py from_stream | row arithmetic, induction on rows | proved: `C20_xref_stream` |
| C21 | Xref-stream defaults and multiple ranges | xref.py from_stream | same, exact behaviour for width 0 and several ranges | proved: `C21_default_type_refuted`, `C21_ranges_refuted`, `C21_second_range_refuted` |
| C22 | Compressed objects are reachable through the xref | locate_object_by_xref | compressed entries never consulted: equality of runs | proved: `C22_object_stream_never_asked_refuted`, `C22_stale_revision_refuted` |
| C23 | The first registration of an object wins | registry.py | invariant over histories of registrations | proved: `C23_first_registration_wins`, `C23_registrations_stay`, `C23_only_that_id`, `C23_forced` |
| C24 | Object streams are unpacked faithfully | objstm.py, registry.py | induction over the listed objects | proved: `C24_object_stream_unpacked` |
| C25 | Object lookup is stable | RegistryPDFParser.locate_object, brute force scan | invariant over histories of lookups; induction over the body of the file | proved: `C25_lookup_registers`, `C25_lookup_stable`, `C25_registered_value`, `C25_scanned` |
| C26 | The newest revision wins | locate_object_by_xref | induction over the chain of tables | proved: `C26_newest_revision` |
| C27 | Building resolves references without looping | document.build, objects.py | measure on array nesting; non-termination for every fuel on cycles; mutual induction over the resolved object for lazy=False, with a rank on references (P_Deep.v) | proved: `C27_all_the_way`, `C27_all_the_way_exists`, `C27_build`, `C27_no_array_cycle`, `C27_array_cycle_refuted`, `C27_not_lazy_refuted`, `C27_stream_cycles`, `C27_reference_chain_refuted` |
| C28 | Dictionary objects are stable under reading | DictBasedObject | invariant over histories of reads | proved: `C28_reading` |
| C29 | Dictionary objects obey dict laws under update | DictBasedObject | invariant over histories of reads and writes | proved: `C29_first_read_sticks`, `C29_assignment_unread`, `C29_del_refuted`, `C29_pop_refuted` |
| C30 | Pages are enumerated in document order | PageTreeNode.pages | induction on trees; never-ending witness | proved: `C30_all_pages`, `C30_first_pages`, `C30_missing_kid_refuted` |
| C31 | Navigation reaches exactly the existing pages | pdfviewer.navigate/next/prev | state machine over histories | proved: `C31_navigate`, `C31_no_such_page`, `C31_pages_exist`, `C31_next_prev`, `C31_prev_refuted`, `C31_always_on_a_page`, `C31_document_pages` |
| C32 | Iterating a viewer visits every remaining page once | CanvasIterator, PagesIterator | induction on remaining pages | proved: `C32_canvases`, `C32_pages`, `C32_failing_page` |
| C33 | Rendering does not depend on history | render, canvas cache | heap invariant over histories | proved: `C33_render_history_independent`, `C33_render_fails_alike`, `C33_renderings_agree`, `C33_canvas_emptied`, `C33_failed_load_refuted` |
| C34 | q/Q restore the graphics state | graphicsstate.py | induction on balanced operator lists | proved: `C34_q_Q_restores`, `C34_q_keeps_state`, `C34_q_Q_restores_in_forms` |
| C35 | Unmatched Q does not fail and falls back to the enclosing state | graphicsstate.py | case analysis plus C34 | proved: `C35_unmatched_Q`, `C35_unmatched_Q_resets`, `C35_harmless_refuted` |
| C36 | Do leaves the graphics state unchanged | before_Do/after_Do | C34 on the form's content | proved: `C36_Do_restores` |
| C37 | Resources are inherited, nearest wins | resources.py | induction on the ancestor chain | proved: `C37_nearest_wins`, `C37_procsets_union`, `C37_succeeds`, `C37_kind_named_self`, `C37_parent_cycle_hangs`, `C37_unreadable` |
| C38 | Content streams split into operators and operands | content.py | grammar of operator lists, induction | proved: `C38_content_operators` |
| C39 | Inline image data is returned verbatim | inlineimage.py | grammar, first-occurrence argument | proved: `C39_inline_image_verbatim`, `C39_ordinary_data`, `C39_bordered_EI_cut_refuted` |
| C40 | Text extraction preserves order and content | simple.py | fold over operators | proved: `C40_strings_in_order`, `C40_strings_of_forms`, `C40_font_in_effect`, `C40_quotation_refuted` |
| C41 | Text in text_content can be parsed back | simple.py object_to_string, utils | printer/parser round trip; base 85 read back by a relation (digits as numbers), for the data of inline images (P_ImageText) | proved: `C41_text_content_parses_back`, `C41_inline_images_refuted`, `C41_strings_refuted`, `C41_image_data`, `C41_image_written` |
| C42 | Unbalanced BT/ET never break rendering | simple.py on_BT/on_ET | invariant | proved: `C42_mode`, `C42_never_fails` |
| C43 | ASCIIHexDecode inverts hex encoding | asciihex.py | encoder as spec, induction | proved: `C43_asciihex_inverse`, `C43_asciihex_total` |
| C44 | ASCII85Decode inverts Ascii85 encoding | ascii85.py | encoder as spec, base-85 arithmetic | proved: `C44_ascii85_inverse`, `C44_ascii85_total` |
| C45 | RunLengthDecode inverts run-length encoding | runlength.py | encoder as spec, induction | proved: `C45_runlength_inverse`, `C45_runlength_truncated`, `C45_runlength_total` |
| C46 | LZWDecode inverts LZW encoding | lzw.py | code streams as spec; table invariant; length invariant for self-referring codes | proved: `C46_lzw_right_iff`, `C46_lzw_inverse`, `C46_lzw_eod_refuted`, `C46_lzw_kwkwk_refuted`, `C46_lzw_total`, `C46_lzw_filter`, `C46_lzw_undecodable`, `C46_lzw_never_raises_refuted` |
| C47 | Predictors are reversed | predictors.py | PNG filters as spec; rows of equal length | proved: `C47_predictor_none`, `C47_predictor_strips_tags`, `C47_right_iff`, `C47_tiff`, `C47_colors_refuted`, `C47_predictors_refuted` |
| C48 | Filter chains are applied in order | native.apply_filter_multi, filters/__init__.py | induction on chains | proved: `C48_filter_chain`, `C48_single_name`, `C48_left_to_right`, `C48_no_filter`, `C48_unknown`, `C48_aliases` |
| C49 | CCITT G4 decoding yields whole rows | ccittfax.py | decoder invariant over bits | proved: `C49_whole_rows`, `C49_truncated`, `C49_parameters_refuted` |
| C50 | CCITT G4 decoding inverts G4 encoding | ccittfax.py | T.6 coding relation as spec; simulation bit by bit; existence of codes | proved: `C50_decodes`, `C50_every_picture` |
| C51 | CMap range lookup | types/cmap.py | range algebra | proved: `C51_construction`, `C51_hex_destination`, `C51_lookup`, `C51_get`, `C51_enumeration`, `C51_as_list`, `C51_as_list_chars_refuted` |
| C52 | Membership and lookup agree | types/cmap.py | case analysis on entries | proved: `C52_membership`, `C52_agree`, `C52_ranges_any_case`, `C52_lower_case_refuted` |
| C53 | bfchar destinations are UTF-16BE | types/cmap.py | UTF-16 arithmetic | proved: `C53_bmp`, `C53_surrogates_refuted`, `C53_range_two_units_refuted`, `C53_glyph_names`, `C53_array_names_refuted` |
| C54 | CMap text decoding is compositional | CMAPDecoder | greedy decoding relation, induction | proved: `C54_decode_string`, `C54_tables`, `C54_encodings`, `C54_mapped`, `C54_single_byte`, `C54_long_codes_ignored`, `C54_realignment_refuted`, `C54_terminates` |
| C55 | CMap files parse to their mappings | parsers/cmap.py | grammar of CMap files in any layout; induction over chunks | proved: `C55_sections`, `C55_lookup`, `C55_char_destinations_refuted`, `C55_terminates` |
| C56 | Single-byte decoding is byte-wise and total | codec.py | induction; finite sweep over tables | proved: `C56_bytewise`, `C56_unlisted_byte`, `C56_builtin` |
| C57 | Encodings agree with their tables | codecs tables | finite sweep lifted by lemma | proved: `C57_winansi`, `C57_standard`, `C57_macroman`, `C57_pdfdoc`, `C57_strings` |
| C58 | Differences override exactly the listed codes | differences.py | fold semantics | proved: `C58_differences`, `C58_sections_exist`, `C58_leading_name_fails`, `C58_other_items_refuted` |
| C59 | The glyph cache is transparent | codec.py cache | cache invariant over histories | proved: `C59_cache_transparent` |
| C60 | Decryption inverts encryption (RC4) | securityhandler.py RC4 | XOR involution, key arithmetic | proved: `C60_stream`, `C60_key_bits`, `C60_located`, `C60_metadata` |
| C61 | Passwords authenticate | securityhandler.py | the standard's algorithms as spec; composition | proved: `C61_opens`, `C61_exact`, `C61_opens_v4`, `C61_opens_v5`, `C61_trailer`, `C61_literal_id_refuted`, `C61_direct_refuted`, `C61_unsigned_refuted`, `C61_crypt_filters_refuted` |
| C62 | Encrypted strings are decrypted | securityhandler.decrypt | case analysis | proved: `C62_string_object_refuted`, `C62_located_refuted`, `C62_nested_untouched`, `C62_stream_dictionary` |
| C63 | AES decryption removes padding | securityhandler.py AES-CBC | CBC inverse for any block cipher | proved: `C63_aes128_padding_kept`, `C63_aes256_padding_kept`, `C63_padding_refuted` |
| C64 | Image byte counts are repaired | pillow.py | list arithmetic | proved: `C64_exact_size`, `C64_right_size_untouched` |
| C65 | Image samples are unpacked MSB first | pillow.py decoded | bit groups, induction | proved: `C65_samples`, `C65_decode`, `C65_sample_value`, `C65_bits_per_component`, `C65_rows_refuted` |
| C66 | Metadata is idempotent | document.metadata | fold over Info entries | proved: `C66_entries`, `C66_succeeds`, `C66_idempotent`, `C66_changes_in_place`, `C66_failure`, `C66_absent` |
| C67 | PDF dates are validated and keep their fields | utils.from_pdf_datetime | exact language of the regular expression | proved: `C67_fields_kept`, `C67_exactly`, `C67_ascii`, `C67_strict_refuted` |
| C68 | Content parsing terminates | content.py | wp calculus | proved: `C68_content_terminates` |
| C69 | Parsing does not depend on the block size | buffer.py, base.py, content, cmap and objstm parsers | C01 applied to two block sizes for parsers that never leave a forward session (weakest preconditions); object streams, which jump, through the session calculus of C88 (P_StreamBlocks) | proved: `C69_object_block_size`, `C69_content_block_size`, `C69_cmap_block_size`, `C69_object_stream_block_size`, `C69_register_block_size` |
| C70 | A font's named encoding is the one used | codecs/__init__.py, codec.py | case analysis on names | proved: `C70_named_encoding_is_winansi`, `C70_macroman_refuted`, `C70_dictionary_base` |
| C71 | Glyph names may spell code points and components | codec.py glyph names | string lemmas and C59 | proved: `C71_uni_names`, `C71_u_names`, `C71_components`, `C71_sloppy_names_refuted` |
| C72 | Graphics state operators set exactly their parameter | pdfviewer.py operators | case analysis; induction on balanced lists | proved: `C72_sets_parameter`, `C72_succeeds`, `C72_missing_operand`, `C72_last_setting_in_effect`, `C72_gs_dictionary`, `C72_gs_font` |
| C73 | Pictures are handed to PIL with the right mode, size and data | pillow.py, content.py | case analysis over colour spaces and filters | proved: `C73_device_pictures`, `C73_jpeg`, `C73_masks`, `C73_indexed`, `C73_indexed_palettes`, `C73_icc_modes`, `C73_last_filter`, `C73_no_filter_listed_refuted`, `C73_gray_refuted`, `C73_icc_refuted`, `C73_bits_refuted`, `C73_inline_jpeg_refuted`, `C73_inline_keys` |
| C74 | Permissions are single bits of P | securityhandler.py | bit arithmetic | proved: `C74_bits` |
| C75 | A font's text is decoded by its ToUnicode map, else its encoding, else its name | codecs/decoder.py | selection by cases; C54/C55 for the text; the predefined files through a checked lexer | proved: `C75_predefined_files`, `C75_tounicode`, `C75_tounicode_broken`, `C75_predefined_names`, `C75_encoding`, `C75_by_name`, `C75_nothing_known`, `C75_text`, `C75_two_byte_codes_refuted`, `C75_types_refuted`, `C75_standard_fonts`, `C75_helvetica_oblique_refuted` |
| C76 | A document opens and its objects are read back, in any order | open_document, locate_object | invariant over the registry and parser state along the session; a document writer shows every document can be so written | proved: `C76_listed_objects`, `C76_any_objects`, `C76_written_documents`, `C76_written_once` |
| C77 | What a lookup gives after other lookups | locate_object, brute-force scan, registry | refinement of a small memory machine, then a closed form for written documents by induction over the session | proved: `C77_sessions_exactly`, `C77_written_history`, `C77_history_independence_refuted` |
| C78 | Iterating a viewer over a file gives the text of its pages | the whole viewer, with lookups as a function (M_App.v); composed with open_document and lookups from file bytes | composition of C76, C27-C33, C38, C56, C70, C75 and an induction over the operators; bounds on recursion by an 'eventually' modality | proved: `C78_viewer`, `C78_written_file` |
| C79 | Files with cross-reference streams and object streams read back, except that compressed objects are never updated | open_document, session, lookups with xref streams and object streams (M_Document.v); writer in S_ModWrite.v | symbolic execution of opening and of the scan; an invariant relating registry and scan position to the memory machine of S_Modern.v; the writer is shown to produce such files by induction over revisions; the refuted theorem by a two-revision file | proved: `C79_written`, `C79_oldest_value`, `C79_update_refuted`, `C79_sessions_exactly`, `C79_any_objects` |
| C80 | Streams whose Length is an object no table lists | registry parser: locate_object, brute_force, next_brute_force (task stack), skip_until_next, length hook | S_Length gives the shape of such file bodies (LenBody) and an independent writer (items); invariant over the sequence of lookups: the scan position stands at a LenBody suffix, everything before it is registered; nested scan lemma for the postponed stream; induction over the body and over the list of ids. The hanging case by induction on the step bound. | proved: `C80_lengths_found`, `C80_written`, `C80_other_next_hangs` |
| C81 | Encrypted documents open with their passwords and read as they were written | PDFDocument.__init__ with encryption (M_Secure: open_pdf, locate_encrypt, locate_backwards), on top of M_Document and M_Crypto | L_Sealed repeats the lookup invariant of C76 for any decryption that maps the objects in the file (raw) to the document's (clear): registered values are clear ones, the scan stands at a suffix of the body; the Encrypt dictionary is the only object read before the handler exists and decryption leaves it alone; S_Sealed says what encrypting a document means; combined with C60, C61, C63 and the writer of C76. | proved: `C81_listed_objects`, `C81_any_objects`, `C81_written_documents`, `C81_written_once`, `C81_passwords` |
| C82 | An Encrypt dictionary that no table lists is found at the end of the file | the backwards search from the cross-reference section (M_Secure.v locate_backwards) over files ending in any objects | induction over the objects behind the dictionary (each step of the search moves one endobj back), then the theorem for encrypted documents with any way of finding the dictionary; a written file as instance; a computed counterexample for other spellings | proved: `C82_unlisted_encrypt`, `C82_written`, `C82_other_spelling_refuted` |
| C83 | The images and forms of a canvas are exactly those the page paints | SimplePDFViewer.on_Do, on_inline_image, FormViewer, canvas (M_Viewer page_Do, run, render) | S_Canvas says which items of a content paint what; invariant over the content list relating the canvas to the items run so far; a form's canvas is characterised by the state reached before its first painting | proved: `C83_inline_images`, `C83_images`, `C83_forms` |
| C84 | Rendering only adds to the canvas | all operator handlers, render, Do with forms (M_Viewer) | a preorder on canvases (S_Canvas grows) that every handler respects in its result and in its error state, lifted through run and render; refuted by the internal method names reachable as operators | proved: `C84_canvas_only_grows`, `C84_earlier_output_kept`, `C84_form_canvas_only_grows`, `C84_navigate_refuted` |
| C85 | From the file's bytes to everything on the canvas of every page | opening the file, lookups, building objects, page tree, resources, content parser, viewer, forms, fonts (M_Document, M_Objects, M_App, M_Viewer, M_Nav) | S_Page says what a page draws from the document's objects alone; L_Page/L_PageDraw relate the built, lazily resolved objects to it and run the content; composed with C76 for the bytes | proved: `C85_viewer`, `C85_written_file`, `C85_untyped_image_refuted` |
| C86 | Any order of visits gives the same canvases | PDFViewer.navigate/next/prev/iter, render (M_Nav) | induction over the command sequence with the reachable-state invariant of C31-C33 | proved: `C86_random_access` |
| C87 | The canvases do not depend on how the file stores its objects | as C85 with xref streams, object streams, decryption, brute-force lookup | C85 over the lookups, composed with C79, C81 and C82 | proved: `C87_modern_file`, `C87_encrypted_file`, `C87_sealed_file` |
| C88 | Reading the file block by block does not show | Buffer with its blocks, offsets, saved states (M_Buffer) under every program of M_Parser and M_Document | a simulation between the two interpreters of parser programs (C01) needs the program to move only forwards between jumps, or backwards before its first forward step: L_Blocks* prove this discipline for every parsing and lookup program by a weakest-precondition logic over visited positions; P_Blocks composes it with C76, C79, C80, C81, C85 | proved: `C88_open_document`, `C88_block_size`, `C88_open_pdf`, `C88_written`, `C88_written_once`, `C88_modern`, `C88_deferred`, `C88_encrypted`, `C88_viewer`, `C88_refuted` |
| C89 | A document saved by incremental updates is shown as it is now | open_document, lookups (M_Document, M_Prog), build, page tree, resources, viewer (M_Objects, M_App, M_Nav, M_Viewer) over files of any number of revisions (S_Write) | C76_written_documents for the lookups; C85_viewer is proved over lookups that answer only ids the document has (all others raise the uncatchable OutOfFuel), so the viewer theorem also says that no other id is asked for; C88 for the block-wise buffer | proved: `C89_updated_file`, `C89_updated_blocks` |
| C90 | Streams whose decode parameters cannot be used have no data, and what follows from that | Stream.filtered as seen through the attribute lookup (M_Document.if_none, M_Decoder.filtered_of, M_App.page_stream/part/app_draw), xref_from_stream, register, show_text | case analysis on the filter list and parameters gives the swallowed AttributeError; each user is then followed: C31_navigate for any history of the viewer, C75_tounicode_broken for fonts | proved: `C90_xref_stream`, `C90_object_stream`, `C90_content`, `C90_content_part`, `C90_tounicode` |
| C91 | Updates that change the kind of cross-reference section cannot be opened | pdf_trailer, direct_xref, the trailer loops over Prev, open_document (M_Document) | S_Mixed gives the chains up to the change of kind; C91_no_table, C91_tables_then_stream and C91_streams_then_table by induction on the chain (the sections before the change are read as in C76 and C79); C91_table_update and C91_stream_update for written files (S_Write, S_ModWrite) | proved: `C91_no_table`, `C91_tables_then_stream`, `C91_streams_then_table`, `C91_table_update`, `C91_stream_update` |
| C92 | Free rows of cross-reference tables are ignored, so deleted objects are still found | xref tables, the lookup over trailer.xrefs, open_document (M_Document) | S_Freed is a writer of files whose tables mix free rows and in-use rows; C92_free_rows by induction on the updates through C76_listed_objects, C92_deleted_refuted from it, C92_written_once through C76_any_objects | proved: `C92_free_rows`, `C92_deleted_refuted`, `C92_written_once`, `C92_viewed` |
| C93 | Damaged files: opening and lookups return or raise an expected exception, and nothing of the scanner leaks | open_pdf, locate_object, locate_encrypt, the whole parser, filters, CCITT decoder and security handlers (M_Parser, M_Document, M_Filters, M_CCITT, M_Crypto, M_Secure) | S_Raises lists the exceptions and defines sequences of lookups; a program logic over all functions (L_Raises, L_RaisesP, L_RaisesD, L_RaisesS) shows by induction that each one leaves the lookup stack as it was, restores only saved states and raises only listed exceptions, BruteForceRecursion only under a non-empty stack; the converse by ten witness files | proved: `C93_open`, `C93_lookups`, `C93_each_is_raised` |
| C94 | A page's content may be divided into several streams that end in white space | page_stream, content_items (M_App), the content parser (M_Parser) | S_Split says what the parts are; texts of content are closed under appending once they end in white space (mutual induction over the syntax), then C38's parser theorem; the refutation is a two-stream page | proved: `C94_split_contents`, `C94_unseparated_refuted` |
| C95 | The viewer's annotations are those of the page it is on | annotations (M_App), navigation (M_Nav), build (M_Objects) | the invariant of reachable viewers (P_Nav) with C27's building of values | proved: `C95_annotations` |
| C96 | Objects hidden in hybrid-reference files are found | pdf_trailer, locate_object, brute_force (M_Document) | the scan and lookup lemmas of C79 (L_Modern), generic in the sections read, with the opened state of C76; a hybrid writer (S_Hybrid) meets the hypotheses | proved: `C96_sessions_exactly`, `C96_any_objects`, `C96_written` |
| C97 | Encrypted documents with cross-reference streams: what can be looked up | open_pdf, locate_encrypt, locate_object, brute_force, decrypt_object (M_Secure, M_Document, M_Crypto) | a memory machine whose entries may raise (S_Locked), simulation lemmas in L_Locked for the scan and the lookup, opening as in C79 and C81, an invariant for blocked ids; a writer meets the hypotheses (both ways); pages: objects read up to the padding of their streams (Keeps), whichever way the cross-reference stream goes (P_LockedPages) | proved: `C97_sessions_exactly`, `C97_any_objects`, `C97_blocked_refuted`, `C97_undecryptable`, `C97_written_refuted`, `C97_written`, `C97_pages` |
| C98 | From the file's bytes to its metadata | read_metadata (M_Metadata) over locate_object and open_pdf (M_Document, M_Secure), meta_pass (M_Meta) | composition of C76 and C81 (any lookups before) with C66 and C67; UTF-8 facts (lead bytes, lengths) for the encodings that are not read; C79 and C80 for the other kinds of files; C88's simulation for the buffer | proved: `C98_modern`, `C98_deferred`, `C98_blocks`, `C98_written`, `C98_none`, `C98_no_dictionary`, `C98_encrypted`, `C98_encrypted_strings_refuted` |
| C99 | Damaged content streams are drawn up to the damage | content_run, content_items, app_draw (M_App), object in the content flavour (M_Parser), run (M_Viewer) | induction over the well-formed beginning (Then, with an arbitrary tail) for the generator; exceptions from the weakest preconditions of C68; C84 for the canvas | proved: `C99_any_bytes`, `C99_each_is_raised`, `C99_before_damage`, `C99_drawn`, `C99_up_to_damage` |
| C100 | From the file's bytes to text_content | open_document, locate_object, app_draw, run (M_Document, M_App, M_Viewer) | C85's viewer over a document, with C41's round trip of the operators written applied to the run of each page | proved: `C100_viewer`, `C100_written_file`, `C100_updated_file`, `C100_modern_file`, `C100_encrypted_file` |
| C101 | Pages that cannot be shown do not affect the others | navigate, after_navigate, render_nav (M_Nav) over app_draw (M_App) | invariant over histories: the pages and canvases cached are right, the viewer's own canvas is not cached; C85 for the canvases | proved: `C101_visits`, `C101_first_page_refuted`, `C101_viewer`, `C101_written_file`, `C101_updated_file`, `C101_modern_file`, `C101_encrypted_file` |
| C102 | AES-encrypted documents are shown like the documents themselves, if their streams tell where their data end | open_pdf, decrypt_object (M_Secure, M_Crypto), app_draw (M_App) | what padding does to each object (Keeps); every notion of S_App/S_Page is preserved by it; C81, C85, C100 for the document as read; C38 for content without a filter | proved: `C102_pages`, `C102_passwords`, `C102_unfiltered`, `C102_last_operator_refuted`, `C102_updated` |
| C103 | Readers that share a file object do not disturb each other | Buffer with the file position explicit: io programs of seek/read (M_Device); users take turns, or race | every io program of the buffer seeks before it reads, so its result is that of M_Buffer wherever the position is; induction on the schedule and on the program; C88 for documents and viewers | proved: `C103_own_turns`, `C103_never_wrong`, `C103_all_calls`, `C103_documents`, `C103_viewers`, `C103_threads_refuted` |
| C104 | Typed objects get their class | build, obj_factory and the class tables (M_Objects) | from C27_build; an independent list of the type names; case analysis of the factory for compound types | proved: `C104_dictionaries`, `C104_streams`, `C104_misspelled_refuted`, `C104_indirect_type_refuted` |
| C105 | deep_obj_by_ref stops at the given depth | deep_obj_by_ref over any lookup function, and over the document's (M_DeepRef) | chains as an inductive relation, circles as a coinductive one; induction on the chain, the depth and the fuel | proved: `C105_depth`, `C105_document_refuted` |
| C106 | The code space of a character map | CodespaceRanges (M_Codespace), over the ranges of M_CMap | induction on the ranges; C51 for the codes of one range; a witness for the comparison by bytes | proved: `C106_contains`, `C106_max`, `C106_list`, `C106_bytewise_refuted`, `C106_bool` |
| C107 | Merging cross-reference tables | XRef.merge (M_Merge) over add_entry (M_Document) | folds of dictionary updates, commuted; a relation for the last entry of a kind and number | proved: `C107_merge`, `C107_algebra`, `C107_table`, `C107_freed_refuted` |
| C108 | Inline images' properties and filtered data | InlineImage's properties and filtered (M_Inline) over apply_filter_multi (M_Document, M_Filters) | the two keys are either one; then C48's chains (decoded_filtered) and C90's case of an array | proved: `C108_filtered`, `C108_both`, `C108_parameters_refuted`, `C108_unknown`, `C108_properties`, `C108_intent`, `C108_false_refuted` |
| C109 | Comparing parsed values | == of Python on parsed values (M_Equal): __eq__ of Stream and IndirectReference, comparisons of int/Decimal, str, bytes, list, dict | a relation for being the same; induction on values; pigeonhole for the keys of dictionaries; scaling by powers of ten for numbers | proved: `C109_equal`, `C109_streams`, `C109_result`, `C109_equivalence`, `C109_reference_refuted`, `C109_reference_stream`, `C109_kinds_refuted` |

## 5. Defects found while proving (all stated and proved as theorems)

Reading: raw CR, unknown escapes and octal codes above 255 in literal strings are kept (C07); negative reals beyond 28 digits are rounded (C05); `<%comment` is rejected (C08);
a wrong Length past the end of the file is a TypeError (C12); a stream object without endobj at the end of the file is a TypeError (C13);
failures are TypeError/KeyError as well as ParserException (C15); markers at offset 0 are missed (C17); an entry freed later in the same
table stays in use (C18); /Prev cycles loop for ever (C19); only the first Index pair of xref streams is used and width 0 means "free"
(C21); compressed objects are never found through the xref (C22); build() loops on array cycles and, not lazily, on dictionary cycles
(C27); assignments to and deletions from dictionary objects are not seen (C29); a null kid restarts the page enumeration for ever (C30).

Viewing: below page 1 a plain ValueError (C31); the canvas handed out is emptied in place (C33); unmatched Q drops the state (C35); a
Parent cycle loops for ever (C37); the `"` operator always fails (C40); inline images, and strings in property lists (written without parentheses: `/ActualText (a b)` makes text_content unparsable), do not survive text_content (C41).

Filters: LZW with EOD decodes to nothing (C46); predictors are not applied (C47); CCITT parameters (C49).

Text: lower-case codes, surrogates, ranges of two UTF-16 units, codes of more than two bytes (C52-C54); cidchar/notdefchar sections with
numbers make the whole CMap unreadable (C55); codecs' tables disagree with their decoders at the listed bytes (C57); any encoding name
decodes as WinAnsi (C70); predefined CMaps map nothing, `Helvetica-Qblique` (C75).

Encryption: ID as literal strings, direct Encrypt dictionary, unsigned P (C61); strings never decrypted (C62); AES padding kept (C63).
Object streams: an updated compressed object is seen with its oldest value (C79); a stream whose unlisted Length object is not the next
one makes lookups loop for ever (C80); an unlisted Encrypt dictionary whose header is spelled unusually is found too late, and streams
before it are read undecrypted (C82).
Images: DeviceGray as palette, ICCBased, row padding (C65, C73).  Metadata: Info changed in place (C66), Unicode digits in dates (C67).

Viewer: an operator called `navigate` empties the canvas (C84); XObjects without the optional Type are not seen (C85); nested forms are not
drawn (C83).  A `gs` dictionary's Font entry stays an unresolved reference, and the next Tj fails (C72).

Swallowed exceptions: a compressed stream whose DecodeParms is an array or a reference has filtered = None, silently (C90).  A resource
kind called `self` makes the page unreachable (C37_kind_named_self).

Chains: a Prev chain mixing tables and cross-reference streams in either order cannot be opened (C91).  An object that an update deletes is still found (C92).  Damaged files raise nine kinds of exceptions besides ParserException (C93).  Content streams of a page are joined without white space (C94).

Encryption and cross-reference streams: after opening, the scan also decrypts the cross-reference streams, which are never encrypted.
With AES this raises ValueError whenever such a stream is not 16 + 16n bytes long, and the scan never gets past it: ids that are absent
from the file, and compressed objects behind it, raise ValueError for ever (C97).

- C98: metadata strings in UTF-16BE, PDFDocEncoding (beyond ASCII) and hexadecimal form are not decoded, references are not followed, and strings of encrypted documents are shown encrypted.

A viewer cannot be created for a document whose first page cannot be loaded (C101).

Glyph names in bfrange arrays raise ValueError or give a wrong character (C53); CMap mappings with single bfchar entries cannot be
listed (C51); pictures without BitsPerComponent raise an error when their rows are unpacked (C65); an empty Filter list raises
IndexError when a picture is converted (C73).

Glyph names like `uni 041` or `u-0041` are taken for hexadecimal numbers (C71); items of Differences other than names raise errors when
text is decoded (C58).

In AES-encrypted documents the padding is read as part of the data: an unfiltered content stream that ends in an operator loses it, so the last string shown may be missing (C102).

Encrypted documents that rely on the defaults for StmF, StrF and CF, or list a crypt filter with method None, cannot be opened (C61); fonts
whose ToUnicode is a name cannot show text (C75).

Documents that share a file object can be used in turns, but not from threads (C103).

Inline images are written in RFC 1924 base 85 (Python's b85encode), labelled ASCII85Decode, and images without filter get one called None (C41). The class tables misspell FontDescriptor, Bead and ObjStm, and a /Type given as a reference raises TypeError (C104).

deep_obj_by_ref tests for IndirectObject instead of IndirectReference, so that it resolves nothing (C105).

CodespaceRanges compares codes as numbers, not byte by byte (C106).

XRef.merge keeps freed numbers in use (C107; nothing calls it); len() of a table raises TypeError, as its __len__ is a property (read in the code, not modelled).

Inline images: `filtered` raises AttributeError when DecodeParms is an array, and properties that are false or zero under their full keys are read as None (C108).

IndirectReference.__eq__ and Stream.__eq__ do not check the other's type: `ref == None`, and `None == ref`, raise AttributeError, also inside lists and dictionaries (C109).

## 6. Mutation testing

`tools/mutate.py` applies realistic edits to a scratch copy of the model and rebuilds; `seeded/LOG.jsonl` has one line per attempt with
the definition, the edit, the claim it breaks, the proofs that failed and what was tightened when a mutant survived.
