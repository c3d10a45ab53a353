# Formal model of pdfreader in Rocq (Coq 8.16.1)

## 1. Approach

The Python code is read as text and transcribed into small total Gallina functions, branch by
branch, with exceptions as values (`exn`), unbounded `Z` for Python ints, `list Z` for
bytes/str (code points), association lists for dicts.  Python loops become recursion on explicit
fuel; running out of fuel is the special exception `OutOfFuel`, never caught by the modelled
`try/except`, and each theorem either excludes it (termination theorems) or states the fuel bound.

Parsers are written once in a small free monad of buffer operations (`current`, `next`, `prev`,
`reset`, `get_state`, `set_state`, plus user state for the registry; `M_Prog.v`).  The monad has two
interpreters: the *concrete* one (`crun`, `M_Buffer.v`) is `pdfreader/buffer.py` line by line (block
loading and all), the *abstract* one (`arun`) is a plain cursor over the file.  A simulation theorem
(valid for every program, C01/C02) relates them, so parser theorems proved on the plain cursor carry
over to the buffered code for every block size (C69).

Layout of `/verif/rocq/theories`:

* `M_*.v` models: definitions only, each citing the file and lines in /repo it transcribes;
* `D_*.v` data generated from /repo by `tools/gen_*.py` (glyph lists, encodings, CMap files, CCITT codes);
* `S_*.v` small specifications, written without reference to the code (textual grammars, encoders, ...);
* `L_*.v` lemmas;
* `P_*.v` property theorems `Cxx_*`, `Print Assumptions` for each, and `Example`s showing that
  non-trivial concrete cases meet the hypotheses.

Where a claim one would expect of a PDF reader is false of the code, the theorem is named
`Cxx_..._refuted` (it proves the negation: a witness, or - where possible - the wrong behaviour for
*every* input of the kind), and the property is restated as what the code really does.

## 2. Trusted base

* Coq 8.16.1's kernel (including its VM, used for finite computations: `vm_compute`; coqchk
  re-checks them without the VM).
* `Print Assumptions` says **"Closed under the global context"** for every theorem in the manifest: no axioms,
  neither own nor of the standard library, are used.  (The `library_axioms` listed by vcheck, all in
  `Coq.ssr.ssrunder`, are module parameters of the loaded ssreflect plugin library; no theorem depends on them.)
* No functors, module types, `Admitted`, `Variable`/`Hypothesis` outside sections, disabled checks or plugins.
  Section variables become universally quantified premises of the theorems (e.g. `inflate`, `md5`, `aes`).
* The transcription itself: that the `M_*.v` definitions behave as the cited Python lines do under CPython 3.
  It is done by reading; seeded mutations (`seeded/LOG.jsonl`) test that the theorems notice changes of it.
* The parts of CPython and of libraries that are modelled as functions ("environment"): int(), bytes.fromhex,
  str.split/strip/upper, slices, struct.pack, bytes.decode (UTF-8), re (two patterns), Decimal (construction and unary
  minus with a 28-digit context), bitarray, dict/OrderedDict, array('b'), base64.a85decode.
* Environment left as parameters (theorems hold whatever they do): zlib (`inflate`), hashlib.md5,
  Crypto's SHA256 and AES block cipher, dateutil's parser, PIL (calls are described, not run), `codecs.lookup` (which names
  Python knows, what it decodes them to).

## 3. What is modelled, and what is not

| file of /repo/pdfreader | model | not modelled |
|---|---|---|
| buffer.py | M_Buffer.v (all of Buffer), M_Device.v (the same with the file position explicit) | `last_block_size`, `offset`, `stack` (never read) |
| parsers/base.py | M_Parser.v | logging, exception texts; `spaces()` (unused) |
| parsers/document.py, parsers/objstm.py | M_Document.v | logging; `body()` enumeration helpers not used by PDFDocument |
| parsers/content.py, parsers/inlineimage.py | M_Parser.v | - |
| parsers/cmap.py | M_CMapParser.v | logging |
| registry.py, types/xref.py | M_Document.v, M_Merge.v | `begin/end` offsets, repr/len |
| types/native.py | M_Document.v (`filtered`), M_Filters.v, M_CMap.v, M_Equal.v | repr helpers |
| types/objects.py, document.py (build, obj_by_ref, deep_obj_by_ref, pages) | M_Objects.v, M_DeepRef.v | subclass specific properties without logic; StructTree classes behave as dictionaries |
| types/cmap.py | M_CMap.v, M_Codespace.v | `__repr__` |
| types/content.py, pillow.py | M_Image.v, M_Inline.v, M_Viewer.v | PIL itself |
| types/filestructure.py, types/constants.py | as far as used (M_Document.v, D_*.v) | - |
| filters/* | M_Filters.v, M_CCITT.v | zlib (parameter); dct, jbig2, jpx (raise or return the data: modelled in apply_filter) |
| codecs/* | M_Codec.v, M_Decoder.v, D_Glyphs.v, D_PSNames.v, D_CMaps.v | `codecs` module of Python (parameter) |
| securityhandler.py | M_Crypto.v | md5, SHA256, AES blocks (parameters); RC4 and CBC are concrete |
| document.py (metadata), utils.py | M_Meta.v, M_Text.v | dateutil (parameter) |
| viewer/* | M_Viewer.v, M_Nav.v | - |
| document.py (constructor, encryption set-up), parsers/document.py (backwards search) | M_Document.v (open_document), M_Crypto.v, M_Secure.v | - |

General simplifications (also in the comments of the definitions):

* Python's recursion limit (RecursionError), memory limits, CPython's 4300-digit limit of int() and Decimal's Emin/Emax are
  ignored; logging has no effect.
* Consecutive evaluations of `self.current` without a move in between are one read.
* A real file: `seek` to a negative offset behaves as in buffer.py's own tests (0); OSError is not modelled.
* M_Objects.v takes `locate_object` as a function `H` from ids to results: C25 (lookup stability within a session) is what
  justifies it.  Values handed out by dictionary objects are immutable in the model (a caller mutating a returned list in place is
  out of scope); `build(stream, lazy=False)` rebinding the `dictionary` of a stream
  object the caller passes in directly (not by reference) is not modelled.
* Graphics states are copied by value (deepcopy of parameter values is identity in the model).
* Canvases are heap objects (M_Nav.v); form canvases and images inside them are values.

