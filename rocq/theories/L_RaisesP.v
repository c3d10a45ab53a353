(** Which exceptions the parsers of pdfreader can raise: every function, on any bytes. *)
From Coq Require Import String.
From Verif Require Import Prelude M_Prog L_Prog M_Parser M_Filters M_Document L_Raises.
Local Open Scope Z_scope.
Local Open Scope prog_scope.

Section Parser.
  Variable f : list Z.
  Variable E : list exn.
  Hypothesis HE : incl raisable E.
  Context {U : Type}.
  Variable I : U -> nat -> Prop.
  Hypothesis Imono : forall u n n', I u n -> (n <= n')%nat -> I u n'.
  Variable stack : U -> list (Z * Z).
  Notation ok b m p := (bal f E I stack b m p anyR).
  Lemma ok_throw {A} b m e : In e raisable -> ok b m (@throw U A e).
  Proof. intros H. apply bal_throw. now apply HE. Qed.
  Lemma ok_ret {A} b m (a : A) : ok b m (@ret U A a).
  Proof. apply bal_ret. intros. exact Logic.I. Qed.
  Lemma ok_bind {A C} b m (p : prog U A) (g : A -> prog U C) : ok b m p -> (forall a n, (m <= n)%nat -> ok b n (g a)) -> ok b m (bind p g).
  Proof. intros H H2. eapply bal_bind; [exact H|]. auto. Qed.
  Lemma ok_save {C} b m (g : nat -> prog U C) : (forall h n, (m <= n)%nat -> (h < n)%nat -> ok b n (g h)) -> ok b m (bind save g).
  Proof. intros H. eapply bal_bind; [now apply bal_save|]. auto. Qed.
  Lemma ok_catch {A} b m (p : prog U A) hd g : ok b m p -> (forall e, ok b m (g e)) -> ok b m (catch p hd g).
  Proof. intros H H2. apply bal_catch; auto. Qed.

  Ltac okt := solve [apply ok_throw; cbn; auto 12].
  Ltac oks tac :=
    repeat (cbv beta iota;
      match goal with
      | |- bal _ _ _ _ _ _ (let '(_, _) := ?x in _) _ => destruct x
      | |- bal _ _ _ _ _ _ (if ?c then _ else _) _ => destruct c
      | |- bal _ _ _ _ _ _ (match ?x with _ => _ end) _ => destruct x
      | |- bal _ _ _ _ _ _ (bind save _) _ => apply ok_save; intros
      | |- bal _ _ _ _ _ _ (bind _ _) _ => apply ok_bind; [|intros]
      | |- bal _ _ _ _ _ _ (catch _ _ _) _ => apply ok_catch; [|intros]
      | |- bal _ _ _ _ _ _ (ret _) _ => apply ok_ret
      | |- bal _ _ _ _ _ _ (throw _) _ => okt
      | |- bal _ _ _ _ _ _ cur _ => apply bal_cur
      | |- bal _ _ _ _ _ _ next _ => apply bal_next
      | |- bal _ _ _ _ _ _ prev _ => apply bal_prev
      | |- bal _ _ _ _ _ _ (reset _) _ => apply bal_reset
      | |- bal _ _ _ _ _ _ index_ _ => apply bal_index
      | |- bal _ _ _ _ _ _ (restore _) _ => apply bal_restore; solve [assumption | lia]
      | _ => tac
      end).
  Ltac o0 := fail.
  Ltac oki := fun H => apply H.

  Lemma ok_next_byte b m : ok b m next_byte.
  Proof. unfold next_byte. oks fail. Qed.
  Lemma ok_read_opts b : forall n m, ok b m (read_opts n).
  Proof. induction n as [|n IH]; intros m; cbn [read_opts]; oks ltac:(apply IH). Qed.
  Lemma ok_read b n m : ok b m (read n).
  Proof. unfold read. oks ltac:(apply ok_read_opts). Qed.
  Lemma ok_maybe_spaces b : forall n m, ok b m (maybe_spaces n).
  Proof. induction n as [|n IH]; intros m; cbn [maybe_spaces]; oks ltac:(apply IH). Qed.
  Lemma ok_maybe_eol b m : ok b m maybe_eol.
  Proof. unfold maybe_eol. oks fail. Qed.
  Lemma ok_eol b m : ok b m eol.
  Proof. unfold eol. oks ltac:(apply ok_maybe_eol). Qed.
  Lemma ok_comment_loop b : forall n m, ok b m (comment_loop n).
  Proof. induction n as [|n IH]; intros m; cbn [comment_loop]; oks ltac:(first [apply ok_next_byte|apply IH]). Qed.
  Lemma ok_comment b n m : ok b m (comment n).
  Proof. unfold comment. oks ltac:(first [apply ok_comment_loop|apply ok_eol]). Qed.
  Lemma ok_comments_loop b : forall n m, ok b m (comments_loop n).
  Proof. induction n as [|n IH]; intros m; cbn [comments_loop]; oks ltac:(first [apply ok_comment|apply ok_maybe_spaces|apply IH]). Qed.
  Lemma ok_sp b n m : ok b m (sp n).
  Proof. unfold sp. oks ltac:(first [apply ok_comments_loop|apply ok_maybe_spaces]). Qed.
  Lemma ok_keyword b w v m : ok b m (keyword w v).
  Proof. unfold keyword. oks ltac:(apply ok_read). Qed.
  Lemma ok_digits b : forall n m acc, ok b m (digits n acc).
  Proof. induction n as [|n IH]; intros m acc; cbn [digits]; oks ltac:(apply IH). Qed.
  Lemma ok_numeric b n m : ok b m (numeric n).
  Proof. unfold numeric. oks ltac:(apply ok_digits). Qed.
  Lemma ok_nni b n m : ok b m (non_negative_int n).
  Proof. unfold non_negative_int. oks ltac:(apply ok_numeric). Qed.
  Lemma ok_name_loop b : forall n m t, ok b m (name_loop n t).
  Proof. induction n as [|n IH]; intros m t; cbn [name_loop]; oks ltac:(first [apply ok_next_byte|apply IH]). Qed.
  Lemma ok_name b n m : ok b m (name n).
  Proof. unfold name. oks ltac:(apply ok_name_loop). Qed.
  Lemma ok_hex_loop b : forall n m t, ok b m (hex_loop n t).
  Proof. induction n as [|n IH]; intros m t; cbn [hex_loop]; oks ltac:(first [apply ok_sp|apply IH]). Qed.
  Lemma ok_hexstring b n m : ok b m (hexstring n).
  Proof. unfold hexstring. oks ltac:(first [apply ok_sp|apply ok_hex_loop]). Qed.
  Lemma ok_octal b : forall k m code, ok b m (octal_more k code).
  Proof. induction k as [|k IH]; intros m code; cbn [octal_more]; oks ltac:(apply IH). Qed.
  Lemma ok_str_loop b : forall n m v, ok b m (str_loop n v).
  Proof. induction n as [|n IH]; intros m v; cbn [str_loop]; oks ltac:(first [apply IH|apply ok_octal|apply ok_eol]). Qed.
  Lemma ok_string b n m : ok b m (string_ n).
  Proof. unfold string_. oks ltac:(apply ok_str_loop). Qed.
  Lemma ok_ref b n m : ok b m (indirect_reference n).
  Proof. unfold indirect_reference. oks ltac:(first [apply ok_nni|apply ok_sp]). Qed.
  Lemma ok_num_ref b n m : ok b m (numeric_or_indirect_reference n).
  Proof. unfold numeric_or_indirect_reference. oks ltac:(first [apply ok_ref|apply ok_numeric]). Qed.
  Lemma ok_token_loop b : forall n m t, ok b m (token_loop n t).
  Proof. induction n as [|n IH]; intros m t; cbn [token_loop]; oks ltac:(apply IH). Qed.
  Lemma ok_token b n m : ok b m (token n).
  Proof. unfold token. oks ltac:(apply ok_token_loop). Qed.
  Lemma ok_find_endstream b err : forall n m data, (err < m)%nat -> ok b m (find_endstream n err data).
  Proof. induction n as [|n IH]; intros m data Hm; cbn [find_endstream]; oks ltac:(apply IH; lia). Qed.
  Lemma ok_stream_body b n d m : ok b m (stream_body n d).
  Proof. unfold stream_body. oks ltac:(first [apply ok_read|apply ok_maybe_spaces|apply ok_find_endstream; lia]). Qed.
  Lemma ok_prevs b : forall n m, ok b m (prevs n).
  Proof. induction n as [|n IH]; intros m; cbn [prevs]; oks ltac:(apply IH). Qed.
  Lemma ok_ii_data b : forall n m data, ok b m (ii_data n data).
  Proof. induction n as [|n IH]; intros m data; cbn [ii_data]; cbv zeta; oks ltac:(first [apply ok_next_byte|apply IH]). Qed.

  Section Obj.
    Variable hook : dict -> prog U dict.
    Variable b : bool.
    Hypothesis Hhook : forall d m, ok b m (hook d).
    Lemma ok_objects : forall n,
      (forall fl m, ok b m (object hook fl n)) /\ (forall fl m, ok b m (dictionary hook fl n)) /\ (forall fl m acc, ok b m (dict_loop hook fl n acc)) /\
      (forall fl m acc, ok b m (arr_loop hook fl n acc)) /\ (forall m, ok b m (inline_image hook n)) /\ (forall m acc, ok b m (entities hook n acc)).
    Proof.
      induction n as [|n (H1 & H2 & H3 & H4 & H5 & H6)]; (split; [intros fl m|split; [intros fl m|split; [intros fl m acc|split; [intros fl m acc|split; [intros m|intros m acc]]]]]);
        cbn [object dictionary dict_loop arr_loop inline_image entities];
        oks ltac:(first [apply H1|apply H2|apply H3|apply H4|apply H5|apply H6|apply Hhook|apply ok_sp|apply ok_token|apply ok_hexstring|apply ok_string|apply ok_keyword|apply ok_numeric|apply ok_num_ref|apply ok_name|apply ok_prevs|apply ok_stream_body|apply ok_read|apply ok_ii_data]).
    Qed.
    Lemma ok_object fl n m : ok b m (object hook fl n). Proof. apply ok_objects. Qed.
    Lemma ok_dictionary fl n m : ok b m (dictionary hook fl n). Proof. apply ok_objects. Qed.
    Lemma ok_indirect_object n m : ok b m (indirect_object hook n).
    Proof. unfold indirect_object. oks ltac:(first [apply ok_nni|apply ok_sp|apply ok_read|apply ok_object|apply ok_prevs]). Qed.
    Lemma ok_trailer n m : ok b m (trailer hook n).
    Proof. unfold trailer. oks ltac:(first [apply ok_read|apply ok_sp|apply ok_dictionary]). Qed.
  End Obj.
  Lemma ok_startxref b n m : ok b m (startxref n).
  Proof. unfold startxref. oks ltac:(first [apply ok_read|apply ok_sp|apply ok_nni]). Qed.
  Lemma ok_header_loop b : forall k m w, ok b m (header_loop k w).
  Proof. induction k as [|k IH]; intros m w; cbn [header_loop]; oks ltac:(first [apply ok_next_byte|apply IH]). Qed.
  Lemma ok_pdf_header b m : ok b m pdf_header.
  Proof.
    unfold pdf_header. apply ok_bind; [apply bal_reset|intros _ n1 _]. apply ok_bind; [apply ok_read|intros w n2 _].
    apply ok_bind; [apply ok_header_loop|intros [[st v]|] n3 _]; [|okt]. apply ok_bind; [apply ok_prevs|intros _ n4 _]. apply ok_bind; [apply bal_index|intros i n5 _]. apply ok_ret.
  Qed.
  Lemma ok_until b stop : forall n m acc, ok b m (until stop n acc).
  Proof. induction n as [|n IH]; intros m acc; cbn [until]; oks ltac:(first [apply ok_next_byte|apply IH]). Qed.
  Lemma ok_xref_range b n m : ok b m (xref_range n).
  Proof. unfold xref_range. oks ltac:(apply ok_until). Qed.
  Lemma ok_xref_entry b m : ok b m xref_entry.
  Proof. unfold xref_entry. oks ltac:(apply ok_read). Qed.
  Lemma ok_entries b : forall k m num x, ok b m (entries_loop k num x).
  Proof.
    induction k as [|k IH]; intros m num x; cbn [entries_loop]; [apply ok_ret|]. apply ok_bind; [apply ok_xref_entry|intros [[off gen] used] n _].
    unfold new_entry. destruct (_ && _); [apply IH|okt].
  Qed.
  Lemma ok_ranges b : forall n m x, ok b m (ranges_loop n x).
  Proof. induction n as [|n IH]; intros m x; cbn [ranges_loop]; oks ltac:(first [apply ok_xref_range|apply ok_eol|apply ok_entries|apply IH]). Qed.
  Lemma ok_direct_xref b n m : ok b m (direct_xref n).
  Proof. unfold direct_xref. oks ltac:(first [apply ok_read|apply ok_sp|apply ok_ranges]). Qed.
  Lemma ok_prev_byte b m : ok b m prev_byte.
  Proof. unfold prev_byte. oks fail. Qed.
  Lemma ok_read_back b : forall k m w, ok b m (read_back k w).
  Proof. induction k as [|k IH]; intros m w; cbn [read_back]; oks ltac:(first [apply ok_prev_byte|apply IH]). Qed.
  Lemma ok_eof_loop b : forall k m w, ok b m (eof_loop k w).
  Proof. induction k as [|k IH]; intros m w; cbn [eof_loop]; oks ltac:(first [apply ok_prev_byte|apply IH]). Qed.
  Lemma ok_seek_eof b m : ok b m seek_eof.
  Proof.
    unfold seek_eof. apply ok_bind; [apply bal_reset|intros _ n1 _]. apply ok_bind; [apply ok_read_back|intros w n2 _]. apply ok_eof_loop.
  Qed.
  Lemma ok_startxref_loop b : forall k m w, ok b m (startxref_loop k w).
  Proof. induction k as [|k IH]; intros m w; cbn [startxref_loop]; oks ltac:(first [apply ok_prev_byte|apply IH]). Qed.
  Lemma ok_xref_offset b n m : ok b m (xref_offset n).
  Proof.
    unfold xref_offset. apply ok_bind; [apply ok_seek_eof|intros _ n1 _]. apply ok_bind; [apply ok_read_back|intros w n2 _].
    apply ok_bind; [apply ok_startxref_loop|intros _ n3 _]. apply ok_bind; [apply ok_read|intros _ n4 _]. apply ok_bind; [apply ok_sp|intros _ n5 _]. apply ok_nni.
  Qed.
  Lemma ok_reset_to b v m : ok b m (reset_to v).
  Proof. unfold reset_to. oks fail. Qed.

  Section Trailer.
    Variable inflate : list Z -> option (list Z).
    Variable ccitt : list Z -> fparams -> res (list Z).
    Hypothesis Hcc : forall d p, okr E (ccitt d p).
    Variable hook : dict -> prog U dict.
    Variable iobj : prog U (Z * Z * obj).
    Variable b : bool.
    Hypothesis Hhook : forall d m, ok b m (hook d).
    Hypothesis Hiobj : forall m, ok b m iobj.
    Lemma ok_table_section n m : ok b m (table_section hook n).
    Proof. unfold table_section. oks ltac:(first [apply ok_direct_xref|apply ok_sp|apply ok_trailer; exact Hhook]). Qed.
    Lemma ok_prev_tables n : forall k p m acc, ok b m (prev_tables hook k n p acc).
    Proof. induction k as [|k IH]; intros p m acc; cbn [prev_tables]; oks ltac:(first [apply ok_reset_to|apply ok_table_section|apply IH]). Qed.
    Lemma ok_res {A} (r : res A) m : okr E r -> ok b m (match r with Ok a => @ret U A a | Err e => throw e end).
    Proof. destruct r; intros H; [apply ok_ret|]. now apply bal_throw. Qed.
    Lemma ok_stream_section m : ok b m (xref_stream_section inflate ccitt iobj).
    Proof.
      unfold xref_stream_section. apply ok_bind; [apply Hiobj|intros [[a c] v] n Hn]. destruct v; try okt. destruct (dget d (bs "Type")); [|okt]. destruct (is_name _ _); [|okt].
      pose proof (okr_xref E HE inflate ccitt Hcc d data) as H. destruct (xref_from_stream inflate ccitt d data); [apply ok_ret|]. now apply bal_throw.
    Qed.
    Lemma ok_prev_streams : forall k p m acc, ok b m (prev_streams inflate ccitt iobj k p acc).
    Proof. induction k as [|k IH]; intros p m acc; destruct p; cbn [prev_streams]; oks ltac:(first [apply ok_reset_to|apply ok_stream_section|apply IH]). Qed.
    Lemma ok_trailer_obj xs d m : ok b m (pdf_trailer_obj xs d).
    Proof. unfold pdf_trailer_obj. oks fail. Qed.
    Lemma ok_pdf_trailer k n m : ok b m (pdf_trailer inflate ccitt hook iobj k n).
    Proof. unfold pdf_trailer. oks ltac:(first [apply ok_xref_offset|apply ok_table_section|apply ok_prev_tables|apply ok_stream_section|apply ok_prev_streams|apply ok_trailer_obj]). Qed.
  End Trailer.
  Lemma ok_header_ints b n : forall k m, ok b m (header_ints k n).
  Proof. induction k as [|k IH]; intros m; cbn [header_ints]; oks ltac:(first [apply ok_sp|apply ok_nni|apply IH]). Qed.
End Parser.
