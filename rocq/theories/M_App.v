(** Model of the whole viewer: SimplePDFViewer(fobj) with the parts of the other files put together.
    pdfreader/document.py 28-43, 137-143 (PDFDocument, pages), viewer/pdfviewer.py 114-120, 201-207, 298-321 (render,
    __init__, get_resources, on_document_load, after_navigate), viewer/simple.py 204-235.
    Lookups of the document's parser are a function [H] (M_Objects.v): whether they are one is a question about the
    file, which the theorems answer.  Documents without Encrypt (else see M_Crypto.v). *)
From Coq Require Import String.
From Verif Require Import Prelude M_Prog M_Parser M_Filters M_Document M_Objects M_Viewer M_Nav M_Decoder.
Local Open Scope Z_scope.

(** parsers/content.py 21-45 objects(), consumed by render(): what the generator yields before it ends or raises.
    The loop of [content_loop] (M_Parser.v) with the items handed out one by one. *)
Fixpoint content_run (f : list Z) (n : nat) (operands : list obj) (s : ast unit) : list citem * option exn :=
  match n with
  | O => ([], Some OutOfFuel)
  | S n' =>
      match arun f cur s with
      | (Err e, _) => ([], Some e)
      | (Ok None, _) => ([], None)
      | (Ok (Some _), s0) =>
          match arun f (object (fun d => ret d) FContent n') s0 with
          | (Err e, _) => ([], Some e)
          | (Ok v, s1) =>
              match v with
              | OInline d data =>
                  match arun f (sp n') s1 with
                  | (Err e, _) => ([CImage d data], Some e)
                  | (Ok _, s2) => let '(l, e) := content_run f n' [] s2 in (CImage d data :: l, e)
                  end
              | _ =>
                  if is_operator v then
                    let i := COp (match v with OTok t => t | _ => [] end) operands in
                    match arun f (sp n') s1 with
                    | (Err e, _) => ([i], Some e)
                    | (Ok _, s2) => let '(l, e) := content_run f n' [] s2 in (i :: l, e)
                    end
                  else
                    match arun f (sp n') s1 with
                    | (Err e, _) => ([], Some e)
                    | (Ok _, s2) => content_run f n' (operands ++ [v]) s2
                    end
              end
          end
      end
  end.
(** pdfviewer.py 118-119: parser_class(self.stream).objects(); enough fuel, by C38 *)
Definition content_items (f : list Z) : list citem * option exn :=
  let n := Z.to_nat (4 * zlen f + 10) in
  match arun f (sp n) (mkA 0 [] tt) with
  | (Err e, _) => ([], Some e)
  | (Ok _, s) => content_run f n [] s
  end.

Section App.
  Variable real_str : bool -> Z -> Z -> list Z.
  Variable python : list Z -> bool.
  Variable python_decode : list Z -> list Z -> res (list Z).
  Variable inflate : list Z -> option (list Z).
  Variable ccitt : list Z -> fparams -> res (list Z).
  (** identity of the class made for an encoding dictionary (M_Decoder.v) *)
  Variable cid : Z.
  (** the document's lookups *)
  Variable H : Z -> Z -> res bv.
  (** bounds on the recursion of build, and on the walks along Kids and Parent *)
  Variables nb n : nat.
  Definition bld : bv -> res bv := build H nb true [].

  (** document.py 43: obj_by_ref(trailer.root); types/filestructure.py 28-31: params["Root"] *)
  Definition doc_root (t : dict) : res bv :=
    match dget t (bs "Root") with
    | None => Err KeyErr
    | Some (ORef a g) => rbind (H a g) (factory bld)
    | Some _ => Err AttributeErr
    end.
  (** 137-143: the first [count] items of root.Pages.pages() *)
  Definition doc_pages (root : bv) (count : nat) : list bv * res bool :=
    match attr bld root (bs "Pages") with
    | Err e => ([], Err e)
    | Ok p => pages bld n count p
    end.

  (** pdfviewer.py 316-321: Contents' filtered data, or those of its items joined: None and non-bytes cannot be *)
  Definition part (v : bv) : res (list Z) :=
    match v with
    | VStm _ d data => if_none TypeErr (filtered inflate ccitt (map (fun p => (fst p, unraw (snd p))) d) data)
    | VDict (Some c) d =>
        rbind (dict_entry bld (Some c) d (bs "filtered")) (fun o =>
          match or_none o with VAtom (OStr s) => Ok s | _ => Err TypeErr end)
    | _ => Err AttributeErr
    end.
  (** None (see M_Document.if_none) is kept until the page is drawn *)
  Definition page_stream (page : bv) : res (option (list Z)) :=
    rbind (attr bld page (bs "Contents")) (fun c =>
    match c with
    | VStm (Some _) d data =>
        match filtered inflate ccitt (map (fun p => (fst p, unraw (snd p))) d) data with
        | Ok b => Ok (Some b)
        | Err AttributeErr => Ok None
        | Err e => Err e
        end
    | _ => rbind (iter_kids c) (fun l => rbind (mapM part l) (fun ls => Ok (Some (List.concat ls))))
    end).
  Definition page_resources (page : bv) : res resources := from_page bld n page [].

  (** pdfviewer.py 323-331: annotations, of the current page (232-235) *)
  Definition annotations (s : nav) : res bv := rbind (current_page s) (fun page => attr bld page (bs "Annots")).

  (** the decoder of a font, simple.py 85-101 *)
  Definition app_show : option bv -> obj -> res (list Z) := show_text python python_decode inflate ccitt bld cid.
  (** simple.py 225-229; None: Buffer(None) calls None.seek, an AttributeError too *)
  Definition app_form_content (form : bv) : res (list citem * option exn) :=
    match form with
    | VStm _ d data => rbind (filtered inflate ccitt (map (fun p => (fst p, unraw (snd p))) d) data) (fun st => Ok (content_items st))
    | _ => Err AttributeErr          (* not called: forms are streams *)
    end.
  Definition app_form_resources (page form : bv) : res resources :=
    rbind (attr bld form (bs "Resources")) (fun r => from_page bld n page (if btruthy r then [r] else [])).
  (** pdfviewer.py 114-120; Buffer(None) calls None.seek *)
  Definition app_draw (page : bv) (rs : resources) (st : option (list Z)) : vst -> res unit * vst :=
    match st with
    | Some st => render_page real_str app_show app_form_content (app_form_resources page) rs (content_items st)
    | None => fun s => (Err AttributeErr, s)
    end.

  (** SimplePDFViewer(fobj): the document's root, then the first page *)
  Definition app_open (t : dict) : res (bv * nav) :=
    rbind (doc_root t) (fun root =>
      match open (doc_pages root) page_resources page_stream with
      | (Ok _, s) => Ok (root, s)
      | (Err e, _) => Err e
      end).
  (** [canvas.strings for canvas in viewer], as far as [count] calls of next *)
  Definition app_canvases (root : bv) (count : nat) (s : nav) : list (res canvas) * nav :=
    iterate (canvas_next (doc_pages root) page_resources page_stream app_draw) count false s.
End App.
