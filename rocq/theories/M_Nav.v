(** Model of navigation, rendering with its canvas cache, and iteration: pdfreader/viewer/pdfviewer.py 18-52,
    196-321, simple.py 168-214, canvas.py.  Canvases are mutable objects: they live in a heap and are handed
    out by address.  (Form canvases, images and inline images inside a canvas are values here: sharing of those
    between copies is not modelled.) *)
From Coq Require Import String.
From Verif Require Import Prelude M_Parser M_Objects M_Viewer.
Local Open Scope Z_scope.

Fixpoint zget {V} (d : list (Z * V)) (k : Z) : option V :=
  match d with [] => None | (k', v) :: r => if k =? k' then Some v else zget r k end.
Fixpoint upd {A} (l : list A) (n : nat) (x : A) : list A :=
  match l, n with [], _ => [] | _ :: r, O => x :: r | y :: r, S m => y :: upd r m x end.

(** pdfviewer.py 201-207, simple.py 196-199 *)
Record nav := mkN {
  n_pages : list (Z * bv);        (* _pages *)
  n_cur : Z;                      (* current_page_number *)
  n_heap : list canvas;           (* all canvases ever made, by address *)
  n_cv : nat;                     (* canvas *)
  n_cache : list (Z * nat);       (* _canvas_cache *)
  n_gss : list gstate; n_br : list (list Z); n_rs : resources; n_stream : option (list Z) }.

Section Nav.
  (** the first [count] items of a fresh doc.pages(), see M_Objects.pages *)
  Variable gen : nat -> list bv * res bool.
  (** Resources.from_page(page), see M_Viewer.from_page *)
  Variable get_resources : bv -> res resources.
  (** pdfviewer.py 316-321: the (joined) filtered data of the page's Contents (None: see M_App.page_stream) *)
  Variable get_stream : bv -> res (option (list Z)).
  (** rendering content on a fresh state: render_page of M_Viewer (from page resources and data) *)
  Variable draw : bv -> resources -> option (list Z) -> vst -> res unit * vst.

  (** next(islice(doc.pages(), n - 1, n)): islice refuses negative bounds; StopIteration becomes
      PageDoesNotExist (246-250) *)
  Definition fetch (n : Z) : res bv :=
    if n <? 1 then Err ValueErr
    else match gen (Z.to_nat n) with
         | (l, Ok false) => match rev l with p :: _ => Ok p | [] => Err PageDoesNotExist end
         | (_, Ok true) => Err PageDoesNotExist
         | (_, Err e) => Err e
         end.

  (** 219-221 current_page *)
  Definition current_page (s : nav) : res bv := match zget (n_pages s) (n_cur s) with Some p => Ok p | None => Err KeyErr end.
  (** 311-321, simple.py 211-214: the canvas object is emptied in place *)
  Definition after_navigate (s : nav) : res unit * nav :=
    let s1 := mkN (n_pages s) (n_cur s) (upd (n_heap s) (n_cv s) empty_canvas) (n_cv s) (n_cache s) [] [] (n_rs s) (n_stream s) in
    match current_page s1 with
    | Err e => (Err e, s1)
    | Ok p =>
        match get_resources p with
        | Err e => (Err e, s1)
        | Ok rs =>
            let s2 := mkN (n_pages s1) (n_cur s1) (n_heap s1) (n_cv s1) (n_cache s1) (n_gss s1) (n_br s1) rs (n_stream s1) in
            match get_stream p with
            | Err e => (Err e, s2)
            | Ok st => (Ok tt, mkN (n_pages s2) (n_cur s2) (n_heap s2) (n_cv s2) (n_cache s2) (n_gss s2) (n_br s2) rs st)
            end
        end
    end.
  (** 223-254 *)
  Definition navigate (n : Z) (s : nav) : res unit * nav :=
    let go (s1 : nav) := after_navigate (mkN (n_pages s1) n (n_heap s1) (n_cv s1) (n_cache s1) (n_gss s1) (n_br s1) (n_rs s1) (n_stream s1)) in
    match zget (n_pages s) n with
    | Some _ => go s
    | None => match fetch n with
              | Err e => (Err e, s)
              | Ok p => go (mkN ((n, p) :: n_pages s) (n_cur s) (n_heap s) (n_cv s) (n_cache s) (n_gss s) (n_br s) (n_rs s) (n_stream s))
              end
    end.
  (** 256-264, 278-286 *)
  Definition next (s : nav) : res unit * nav := navigate (n_cur s + 1) s.
  Definition prev (s : nav) : res unit * nav := navigate (n_cur s - 1) s.
  (** 201-207, 303-306: __init__, on_document_load *)
  Definition open : res unit * nav := navigate 1 (mkN [] 1 [empty_canvas] 0 [] [] [] [] None).

  Definition the_canvas (s : nav) : canvas := nth (n_cv s) (n_heap s) empty_canvas.
  (** simple.py 204-209; pdfviewer.py 114-120.  A failing rendering leaves what it did. *)
  Definition render_nav (s : nav) : res unit * nav :=
    match zget (n_cache s) (n_cur s) with
    | None =>
        match current_page s with
        | Err e => (Err e, s)
        | Ok p =>
            let '(r, v) := draw p (n_rs s) (n_stream s) (mkV (n_gss s) (n_br s) (the_canvas s)) in
            let h := upd (n_heap s) (n_cv s) (v_cv v) in
            match r with
            | Err e => (Err e, mkN (n_pages s) (n_cur s) h (n_cv s) (n_cache s) (v_gss v) (v_br v) (n_rs s) (n_stream s))
            | Ok _ => (Ok tt, mkN (n_pages s) (n_cur s) (h ++ [v_cv v]) (n_cv s) ((n_cur s, List.length h) :: n_cache s)
                                  (v_gss v) (v_br v) (n_rs s) (n_stream s))
            end
        end
    | Some a => (Ok tt, mkN (n_pages s) (n_cur s) (n_heap s ++ [nth a (n_heap s) empty_canvas]) (List.length (n_heap s)) (n_cache s)
                            (n_gss s) (n_br s) (n_rs s) (n_stream s))
    end.

  (** 18-33 CanvasIterator.__next__, 38-52 PagesIterator.__next__; the flag is last_page_reached.
      The canvas is a copy, at a new address. *)
  Definition step_next (s : nav) : res bool * nav :=
    match next s with
    | (Ok _, s1) => (Ok false, s1)
    | (Err PageDoesNotExist, s1) => (Ok true, s1)
    | (Err e, s1) => (Err e, s1)
    end.
  Definition canvas_next (last : bool) (s : nav) : res canvas * (bool * nav) :=
    if last then (Err StopIter, (true, s))
    else match render_nav s with
         | (Err e, s1) => (Err e, (false, s1))
         | (Ok _, s1) =>
             let c := the_canvas s1 in
             let s2 := mkN (n_pages s1) (n_cur s1) (n_heap s1 ++ [c]) (n_cv s1) (n_cache s1) (n_gss s1) (n_br s1) (n_rs s1) (n_stream s1) in
             match step_next s2 with
             | (Err e, s3) => (Err e, (false, s3))
             | (Ok b, s3) => (Ok c, (b, s3))
             end
         end.
  Definition page_next (last : bool) (s : nav) : res bv * (bool * nav) :=
    if last then (Err StopIter, (true, s))
    else match current_page s with
         | Err e => (Err e, (false, s))
         | Ok p => match step_next s with
                   | (Err e, s1) => (Err e, (false, s1))
                   | (Ok b, s1) => (Ok p, (b, s1))
                   end
         end.
  (** calling next() on an iterator [k] times *)
  Fixpoint iterate {A} (nx : bool -> nav -> res A * (bool * nav)) (k : nat) (last : bool) (s : nav) : list (res A) * nav :=
    match k with
    | O => ([], s)
    | S k' => let '(r, (last', s')) := nx last s in let '(rs, s'') := iterate nx k' last' s' in (r :: rs, s'')
    end.
End Nav.
