(** * C72: the errors have messages *)

From Coq Require Import String.
From Verif Require Import Messages.
From Verif Require Import Base Prim Values Records LinkedData StrHash IntMap Strings AStream BufStream State
  FileImage ApiCore ApiFile ApiWrite ApiRead Api FileFacts StreamFacts OpenFacts DicInv Footprint SessInv FileFlow Sessions Vocab PropErr.
Open Scope Z_scope.
Open Scope list_scope.

(** ** Specification *)

(** gdxErrorStr hands over [t] for the error [n], whatever the operating system says and
    whatever file was opened. *)
Definition told (n : Z) (t : str) : Prop := forall os file, error_str os file n = Done (Some t).
(** An error that a caller can see: one with a text of the library, or the 2 of the operating
    system for a file that is not there. *)
Definition understood (n : Z) : Prop := n = 2 \/ exists t, told n t /\ t <> [].
Definition opening (c : call) : bool := match c with gdxOpenWriteEx _ _ _ | gdxOpenReadEx _ _ | gdxOpenAppend _ => true | _ => false end.

(** ** Proofs *)

Definition known (n : Z) : Prop := has_message n = true \/ n = 2.
Lemma message_in_In : forall l n s, message_in l n = Some s -> In (n, s) l.
Proof.
  induction l as [|[k t] l IH]; intros n s H; cbn [message_in fst snd] in H; [discriminate H|]. destruct (Z.eqb_spec k n) as [->|]; [injection H as <-; left; reflexivity|right; apply IH; exact H].
Qed.
Definition good_message (e : Z * str) : bool := negb (fst e =? 2) && (0 <? zlen (snd e)) && (zlen (snd e) <? 256).
Lemma messages_good : forallb good_message messages = true.
Proof. vm_compute. reflexivity. Qed.
Lemma message_told : forall n s, message_in messages n = Some s -> told n s /\ s <> [].
Proof.
  intros n s H. pose proof messages_good as G. rewrite forallb_forall in G. specialize (G _ (message_in_In _ _ _ H)). unfold good_message in G. cbn [fst snd] in G.
  destruct (Z.eqb_spec n 2) as [E|E]; [discriminate G|]. cbn [negb andb] in G. split; [|intros ->; discriminate G].
  intros os file. unfold error_str, to_buffer. rewrite H. destruct (Z.eqb_spec n 2) as [E'|_]; [contradiction|]. cbn [andb].
  destruct (Z.ltb_spec 256 (zlen s)); [lia|]. destruct (Z.eqb_spec (zlen s) 256); [lia|]. reflexivity.
Qed.
Lemma known_understood : forall n, known n -> understood n.
Proof.
  intros n [H|H]; [right|left; exact H]. unfold has_message in H. destruct (message_in messages n) as [s|] eqn:E; [|discriminate H]. exists s. apply message_told. exact E.
Qed.

Definition K (st : gst) : Prop := known (r_last (g_err st)).
Definition okk (m : outcome (resp * gst)) : Prop := match m with Done (r, s) => K s /\ Forall known (r_ints r) | UB => True end.
Lemma known0 : known 0. Proof. left. reflexivity. Qed.
Lemma K_error : forall n st, known n -> K st -> K (set_error n st).
Proof. intros n st N Q. unfold set_error. destruct (n =? 0); [exact Q|]. unfold K. cbn. destruct (_ =? 0); [exact N|exact Q]. Qed.
Lemma K_file : forall a b, same_but_file a b -> K a -> K b.
Proof. intros a b (f & ->) Q. exact Q. Qed.
Lemma K_atom : forall c a b, K a -> atom c a b -> K b.
Proof.
  intros c a b Q A. destruct A; try exact Q; try exact known0. apply K_error; [left; assumption|exact Q].
Qed.
Lemma K_release : forall z st, K st -> K (snd (release z st)).
Proof. intros z st Q. unfold release. destruct (f_strm (g_fil st)); exact Q. Qed.

Section O.
Context (z : zlib).
Lemma okk_bindg : forall (m : outcome gst) k, match m with Done s => K s | UB => True end -> (forall s, K s -> okk (k s)) -> okk (obind m k).
Proof. intros [s|] k M H; [apply H; exact M|exact Logic.I]. Qed.
Lemma okk_bind : forall {A} (m : outcome (A * gst)) k, match m with Done (_, s) => K s | UB => True end -> (forall a s, K s -> okk (k (a, s))) -> okk (obind m k).
Proof. intros A [[a s]|] k M H; [apply H; exact M|exact Logic.I]. Qed.
Lemma okk_pure : forall {A} (m : outcome A) k, (forall a, okk (k a)) -> okk (obind m k).
Proof. intros A [a|] k H; [apply H|exact Logic.I]. Qed.
Lemma file_error_k : forall st, K st -> okk (file_error st).
Proof. intros st Q. unfold file_error, okk. split; [exact Q|]. constructor; [exact Q|constructor]. Qed.
Lemma no_good_k : forall e st, known e -> okk (file_no_good e st).
Proof. intros e st E. apply file_error_k. exact E. Qed.
Lemma check_k : forall b e st k, known e -> K st -> (forall s, K s -> okk (k s)) -> okk (check_or b e st k).
Proof. intros b e st k E Q H. unfold check_or. destruct b; [apply H; exact Q|apply file_error_k, K_error; assumption]. Qed.
Ltac stepk := cbv beta iota zeta;
  match goal with
  | |- okk (check_or _ _ _ _) => apply check_k; [left; reflexivity|assumption|intros ? ?]
  | |- okk (@obind gst _ ?x _) => apply okk_bindg; [let H := fresh in destruct x eqn:H; [|exact Logic.I];
        first [apply s_setcomp_sbf in H|apply s_setpos_sbf in H|apply s_write_sbf in H]; eapply K_file; [exact H|assumption]|intros ? ?]
  | |- okk (@obind (_ * gst) _ ?x _) => apply okk_bind; [let H := fresh in destruct x as [[? ?]|] eqn:H; [|exact Logic.I];
        first [apply s_parse_sbf in H|apply s_getpos_sbf in H]; eapply K_file; [exact H|assumption]|intros ? ? ?]
  end.
Lemma open_doms_k : forall m st k, K st -> (forall s, K s -> okk (k s)) -> okk (open_doms z m st k).
Proof. intros m st k Q H. unfold open_doms. cbv zeta. destruct (_ && _); [|apply H; exact Q]. repeat stepk. apply H. assumption. Qed.
Lemma open_acros_k : forall m st k, K st -> (forall s, K s -> okk (k s)) -> okk (open_acros z m st k).
Proof. intros m st k Q H. unfold open_acros. cbv zeta. destruct (7 <=? _); [|apply H; exact Q]. repeat stepk. apply H. assumption. Qed.
Lemma open_texts_k : forall m st k, K st -> (forall s, K s -> okk (k s)) -> okk (open_texts z m st k).
Proof. intros m st k Q H. unfold open_texts. repeat stepk. apply okk_pure. intros [texts mt]. repeat stepk. apply H. assumption. Qed.
Lemma open_uels_k : forall m st k, K st -> (forall s, K s -> okk (k s)) -> okk (open_uels z m st k).
Proof. intros m st k Q H. unfold open_uels. repeat stepk. apply H. assumption. Qed.
Lemma open_symbs_k : forall m st k, K st -> (forall s, K s -> okk (k s)) -> okk (open_symbs z m st k).
Proof. intros m st k Q H. unfold open_symbs. do 5 stepk. cbv beta iota zeta. destruct a0; repeat stepk; apply H; assumption. Qed.
Lemma open_header_k : forall st k, K st -> (forall s, K s -> okk (k s)) -> okk (open_header z st k).
Proof.
  intros st k Q H. unfold open_header. stepk. destruct a as [bo|]; [|apply no_good_k; left; reflexivity].
  do 6 stepk. cbv beta iota zeta. destruct (_ <=? 5); cbn [obind]; repeat stepk; apply H; assumption.
Qed.
Lemma open_read_k : forall name rm st, K st -> okk (open_read z name rm st).
Proof.
  intros name rm st Q. unfold open_read. destruct (negb _); [split; [exact Q|constructor; [left; reflexivity|constructor]]|]. cbv zeta.
  assert (Q0 : K (forget_cur (upd_wrk (set_w_rd None) (init_errors st)))) by exact known0.
  destruct name as [|c name]; [apply no_good_k; left; reflexivity|].
  destruct (disk_get _ _) as [F|]; [|apply no_good_k; right; reflexivity].
  apply open_header_k; [exact Q0|]. intros s1 Q1. stepk. apply open_symbs_k; [assumption|]. intros s3 Q3. apply open_uels_k; [assumption|]. intros s4 Q4.
  match goal with |- okk (if _ then open_texts z _ _ ?k else _) => assert (RS : forall s, K s -> okk (k s)) end.
  { intros s5 Q5. apply open_acros_k; [assumption|]. intros s6 Q6. apply open_doms_k; [assumption|]. intros s7 Q7. cbv zeta.
    assert (Q8 : K (upd_fil (set_f_stat 1) (set_g_mode fr_init (reset_special (upd_err (set_r_last 0) s7))))) by exact known0. stepk. split; [assumption|repeat constructor]. }
  destruct (Z.rem rm 2 =? 0); [apply open_texts_k; assumption|apply RS; assumption].
Qed.
Lemma open_write_k : forall name prod compr st, K st -> okk (open_write z name prod compr st).
Proof.
  intros name prod compr st Q. unfold open_write. destruct (negb _); [split; [exact Q|constructor; [left; reflexivity|constructor]]|].
  destruct name as [|c name]; [split; [left; reflexivity|constructor; [left; reflexivity|constructor]]|].
  unfold create_file. apply okk_pure. intros p.
  assert (Q0 : K (fresh_session z (c :: name) prod (compr mod 2) st)) by exact known0.
  repeat stepk. split; [assumption|repeat constructor].
Qed.
Lemma close_k : forall st, K st -> ok K (close z st).
Proof. intros st Q. eapply (close_keeps z gdxClose); eauto using K_atom, K_release. Qed.
Lemma open_append_k : forall name st, K st -> okk (open_append z name st).
Proof.
  intros name st Q. unfold open_append. pose proof (open_read_k name 0 st Q) as X. destruct (open_read z name 0 st) as [[r s1]|]; [|exact Logic.I]. destruct X as [X1 X2]. cbn [obind].
  destruct (negb _); [split; assumption|]. destruct (f_ver _ <? 7).
  - pose proof (close_k (set_error ERR_FILETOOLDFORAPPEND s1) (K_error ERR_FILETOOLDFORAPPEND s1 (or_introl eq_refl) X1)) as Y. destruct (close z _) as [[r2 s2]|]; [|exact Logic.I]. split; [exact Y|repeat constructor].
  - assert (X3 : K (upd_fil (set_f_stat 2) (set_g_mode fw_init s1))) by exact X1. cbv zeta. stepk. split; assumption.
Qed.
Lemma exec_k : forall c st r st', call_ok c -> K st -> exec z c st = Done (r, st') -> K st' /\ (opening c = true -> Forall known (r_ints r)).
Proof.
  intros c st r st' OK Q E. destruct (session_call c) eqn:C.
  { assert (X : ok K (exec z c st)) by (apply (session_ok z K); [intros; exact known0|intros a b; apply K_atom|exact C|exact OK|exact Q]). rewrite E in X. split; [exact X|]. destruct c; discriminate. }
  destruct c; try discriminate C; cbn [exec] in E.
  - pose proof (open_write_k name prod compr st Q) as X. rewrite E in X. destruct X. split; auto.
  - pose proof (open_read_k name readmode st Q) as X. rewrite E in X. destruct X. split; auto.
  - pose proof (open_append_k name st Q) as X. rewrite E in X. destruct X. split; auto.
  - pose proof (close_k st Q) as X. rewrite E in X. split; [exact X|discriminate].
  - assert (X : ok K (destroy z st)) by (eapply (destroy_keeps z gdxClose); eauto using K_atom, K_release). rewrite E in X. split; [exact X|discriminate].
Qed.
Lemma run_k : forall cs st rs st', Forall call_ok cs -> K st -> run z cs st = Done (rs, st') -> K st'.
Proof.
  induction cs as [|c cs IH]; intros st rs st' OK Q R; cbn [run] in R; [injection R as _ <-; exact Q|]. inversion OK; subst.
  destruct (exec z c st) as [[x s1]|] eqn:E; [|discriminate R]. cbn [obind] in R. destruct (run z cs s1) as [[xs s2]|] eqn:R2; [|discriminate R]. injection R as _ <-.
  eapply IH; [assumption| |exact R2]. eapply exec_k; eassumption.
Qed.
End O.

(** Whatever is done with an object, the error that gdxGetLastError answers if the operating
    system has none, *)
Theorem C72_errors_have_messages : forall z disk cs rs st e, Forall call_ok cs -> run z cs (new_object disk) = Done (rs, st) -> pending z st e -> understood e.
Proof. intros z disk cs rs st e OK R P. apply pending_iff in P. subst e. apply known_understood. exact (run_k z cs (new_object disk) _ _ OK known0 R). Qed.
(** and the error that a call that opens a file answers, has a message. *)
Theorem C72_opening_errors_have_messages : forall z disk cs rs st c code e st', Forall call_ok cs -> run z cs (new_object disk) = Done (rs, st) -> call_ok c -> opening c = true ->
  exec z c st = Done (ret_i code [e], st') -> understood e.
Proof.
  intros z disk cs rs st c code e st' OK R OC O E. destruct (exec_k z c st _ _ OC (run_k z cs (new_object disk) _ _ OK known0 R) E) as [_ F]. specialize (F O). inversion F; subst. apply known_understood. assumption.
Qed.
(** Different errors have different messages. *)
Lemma all_differ : NoDup (List.map snd messages).
Proof.
  assert (D : forall l : list str, (fix go l := match l with [] => true | x :: r => negb (existsb (str_eqb x) r) && go r end) l = true -> NoDup l).
  { induction l as [|x l IH]; intros H; constructor; apply andb_true_iff in H; destruct H as [H1 H2]; [|apply IH; exact H2].
    intros I. apply negb_true_iff in H1. assert (E : existsb (str_eqb x) l = true) by (apply existsb_exists; exists x; split; [exact I|apply str_eqb_spec; reflexivity]). congruence. }
  apply D. vm_compute. reflexivity.
Qed.
Theorem C72_messages_differ : forall a b t, has_message a = true -> told a t -> told b t -> has_message b = true -> a = b.
Proof.
  intros a b t HA TA TB HB. unfold has_message in *. destruct (message_in messages a) as [s|] eqn:EA; [|discriminate HA]. destruct (message_in messages b) as [u|] eqn:EB; [|discriminate HB].
  destruct (message_told _ _ EA) as [A _], (message_told _ _ EB) as [B _]. pose proof (A (fun _ => []) []) as A1. pose proof (B (fun _ => []) []) as B1. rewrite (TA (fun _ => []) []) in A1. rewrite (TB (fun _ => []) []) in B1.
  injection A1 as <-. injection B1 as <-. apply message_in_In in EA, EB. pose proof all_differ as ND.
  clear - EA EB ND. induction messages as [|[k x] l IH]; [contradiction EA|]. cbn [List.map snd] in ND. inversion ND as [|? ? NI ND']; subst.
  destruct EA as [EA|EA], EB as [EB|EB]; [congruence| | |apply IH; assumption]; exfalso; [injection EA as _ <-|injection EB as _ <-]; apply NI; apply in_map_iff; [exists (b, x)|exists (a, x)]; auto.
Qed.
(** A file that is not there, with a long name: the text does not fit the buffer, and either
    nothing is handed over or one character is written behind its end. *)
Definition enoent (n : Z) : str := s2z "No such file or directory".
Theorem C72_long_name_refuted : exists a b, zlen a <= 255 /\ zlen b <= 255 /\ error_str enoent a 2 = UB /\ error_str enoent b 2 = Done None.
Proof. exists (repeat 97 227), (repeat 97 230). repeat split; vm_compute; congruence. Qed.
(** It is handed over when it fits.  Missing: longer texts, for the reason above. *)
Theorem C72_missing_file_partial : forall os file, file <> [] -> zlen (os 2) + zlen file < 252 -> error_str os file 2 = Done (Some (os 2 ++ s2z ": " ++ [34] ++ file ++ [34])).
Proof.
  intros os file NE L. unfold error_str. change (message_in messages 2) with (@None str). change (2 =? 2) with true. destruct file as [|c file]; [contradiction|]. cbn [negb andb].
  unfold to_buffer. assert (E : zlen (os 2 ++ s2z ": " ++ [34] ++ (c :: file) ++ [34]) = zlen (os 2) + zlen (c :: file) + 4).
  { unfold zlen. rewrite !app_length. change (List.length (s2z ": ")) with 2%nat. cbn [List.length]. lia. }
  rewrite E. destruct (Z.ltb_spec 256 (zlen (os 2) + zlen (c :: file) + 4)); [lia|]. destruct (Z.eqb_spec (zlen (os 2) + zlen (c :: file) + 4) 256); [lia|]. reflexivity.
Qed.

(** ** Cases *)

(** Two errors: a bad name for a symbol, and a file that is not there. *)
Definition cm_calls : list call := [gdxOpenWriteEx (s2z "c.gdx") (s2z "test") 0; gdxDataWriteStrStart (s2z "a b") [] 1 dt_set 0].
Definition cm_state : gst := match run rle_zlib cm_calls (new_object []) with Done (_, s) => s | UB => new_object [] end.
Example C72_case : exists rs, run rle_zlib cm_calls (new_object []) = Done (rs, cm_state) /\ pending rle_zlib cm_state ERR_BADIDENTFORMAT /\ understood ERR_BADIDENTFORMAT /\ told ERR_BADIDENTFORMAT (s2z "Illegal identifier").
Proof.
  eexists. split; [vm_compute; reflexivity|]. split; [apply pending_iff; vm_compute; reflexivity|]. split; [right; exists (s2z "Illegal identifier"); split; [|discriminate]|]; apply message_told; reflexivity.
Qed.
Example C72_case_missing : exists st, exec rle_zlib (gdxOpenReadEx (s2z "x.gdx") 0) (new_object []) = Done (ret_i 0 [2], st) /\ error_str enoent (s2z "x.gdx") 2 = Done (Some (enoent 2 ++ s2z ": " ++ [34] ++ s2z "x.gdx" ++ [34])).
Proof. eexists. split; [vm_compute; reflexivity|]. apply C72_missing_file_partial; [discriminate|vm_compute; reflexivity]. Qed.

Print Assumptions C72_errors_have_messages.
Print Assumptions C72_opening_errors_have_messages.
Print Assumptions C72_messages_differ.
Print Assumptions C72_long_name_refuted.
Print Assumptions C72_missing_file_partial.
