(** * C69: the acronyms that gdxdump declares *)

From Coq Require Import String Permutation Sorted.
From Verif Require Import Base Prim Values Records LinkedData StrHash IntMap Strings AStream BufStream State
  FileImage ApiCore ApiFile ApiWrite ApiRead Api FileFacts BlockFacts StreamFacts OpenFacts DicInv WriteInv WriteSteps Journal WriteCalls WriteTrace
  Footprint SessInv FileFlow Sessions Vocab PropErr Reopen ReadFacts ReadRecs ReadLoops Cases PropNames PropMeta Segment PropStruct PropTexts
  LabelFacts Contents Wrote PropLabels Readers PropRead Dump PropDump DumpData PropData DumpList PropList DumpDecl PropDecl DumpAcro.
Open Scope Z_scope.
Open Scope list_scope.

(** ** Specification *)

(** The declaration of acronym [n]: the word Acronym, its name, its text, a semicolon. *)
Definition declared (z : zlib) (st : gst) (n : Z) (ps : list part) : Prop :=
  exists name t ix tp, acronym_is z st n name t ix /\ text_parts 0 t tp /\ ps = words [s2z "Acronym"; name] ++ tp ++ [p_mark 59].

(** ** Proofs *)

Definition good_texts (d : dic) : Prop := Forall (fun a => quotable (ac_text a)) (d_acros d).
Lemma quotable_nil : quotable [].
Proof. exact (make_good_quotable []). Qed.
Lemma texts_step : forall c d d', datom c d d' -> good_texts d -> good_texts d'.
Proof.
  intros c d d' A. unfold good_texts.
  assert (ZS : forall n a b, quotable (ac_text b) \/ ac_text b = ac_text a -> znth (d_acros d) n = Some a -> Forall (fun a => quotable (ac_text a)) (d_acros d) -> Forall (fun a => quotable (ac_text a)) (zset n b (d_acros d))).
  { intros n a b Q E F. rewrite Forall_forall in *. intros x I. destruct (In_nth_error _ _ I) as (i & X). assert (Y : znth (zset n b (d_acros d)) (Z.of_nat i) = Some x) by (unfold znth; destruct (Z.ltb_spec (Z.of_nat i) 0); [lia|rewrite Nat2Z.id; exact X]).
    apply znth_zset in Y. destruct Y as [[_ ->]|[_ Y]]; [destruct Q as [Q|Q]; [exact Q|rewrite Q; apply F; eapply znth_In; exact E]|apply F; eapply znth_In; exact Y]. }
  destruct A; intros F; try exact F; try solve [unfold upd_sym; destruct (znth _ _); exact F].
  - unfold uel_add. destruct (sl_add _ _ _ _). exact F.
  - unfold map_status. rewrite H. exact F.
  - cbn [d_acros set_d_acros]. unfold check_entry. destruct (_ <? 0); [|exact F]. apply Forall_app. split; [exact F|]. constructor; [exact quotable_nil|constructor].
  - cbn [d_acros set_d_acros]. apply Forall_app. split; [exact F|]. constructor; [apply make_good_quotable|constructor].
  - cbn [d_acros set_d_acros]. apply Forall_app. split; [exact F|]. constructor; [exact quotable_nil|constructor].
  - cbn [d_acros set_d_acros]. eapply ZS; [right|eassumption|exact F]. reflexivity.
  - cbn [d_acros set_d_acros]. eapply ZS; [left|eassumption|exact F]. apply make_good_quotable.
  - cbn [d_acros set_d_acros]. eapply ZS; [right|eassumption|exact F]. reflexivity.
Qed.
Lemma loaded_texts : forall d, good_texts d -> good_texts (loaded (contents_of d)).
Proof. intros d F. unfold good_texts in *. cbn [d_acros loaded c_acros contents_of]. apply Forall_map. eapply Forall_impl; [|exact F]. intros a Q. exact Q. Qed.
Lemma writing_texts : forall z cs st, in_writing z cs st -> good_texts (g_dic st).
Proof.
  intros z. apply (writing_dic z good_texts).
  - intros st C. apply created_dic in C. destruct C as (_ & _ & _ & _ & _ & C & _). unfold good_texts. rewrite C. constructor.
  - intros np d _ I. exact (loaded_texts d I).
  - exact texts_step.
Qed.
Lemma reopened_texts : forall z name prod compr cs rs st st2 n nm t ix, reopened z name prod compr cs rs st st2 -> acronym_is z st2 n nm t ix -> safe_text t.
Proof.
  intros z name prod compr cs rs st st2 n nm t ix RO (s & A). destruct (reopened_tables _ _ _ _ _ _ _ _ RO) as (D & _). pose proof RO as (W & _). apply writes_in_writing, writing_texts, loaded_texts in W. rewrite <- D in W.
  cbn [exec] in A. unfold acronym_get_info in A. destruct (negb _); [discriminate A|]. destruct (znth _ _) as [a|] eqn:E; [|discriminate A]. destruct (_ && _) eqn:B; [|discriminate A]. injection A as _ _ <- _.
  apply znth_In in E. unfold good_texts in W. rewrite Forall_forall in W. split; [lia|exact (W a E)].
Qed.

Lemma line_read : forall nm t, plain_word nm -> safe_text t ->
  exists tp, text_parts 0 t tp /\ lex0 (s2z "Acronym " ++ nm ++ (match t with [] => [] | _ => q_text true t end) ++ s2z ";" ++ [ch_eol]) (words [s2z "Acronym"; nm] ++ tp ++ [p_mark 59]).
Proof.
  intros nm t W S. destruct (text_read 0 t S) as (tp & RT & TP). pose proof (text_space 0 t) as TS. change (0 =? 0) with true in RT, TS. exists tp. split; [exact TP|].
  set (tx := match t with [] => [] | _ => q_text true t end) in *.
  apply (lex0_app (s2z "Acronym ") _ [p_text (s2z "Acronym")]); [intros rest; reflexivity|]. apply (lex10 nm _ [p_text nm]); [apply lex_word; exact W| |].
  - apply lex10; [exact RT|intros rest; reflexivity|intros rest; reflexivity].
  - intros rest. rewrite <- app_assoc. destruct tx as [|c tx']; [reflexivity|]. subst c. reflexivity.
Qed.
Lemma lines_read : forall z st k, (forall n, 1 <= n < k -> exists nm t ix, acronym_is z st n nm t ix /\ plain_word nm /\ safe_text t) ->
  forall c n, 1 <= n -> n + Z.of_nat c = k -> exists text items, acronym_lines z c n st = Done text /\ Forall2 (declared z st) (count_from n c) items /\ lex0 text (List.concat items).
Proof.
  intros z st k H. induction c as [|c IH]; intros n N E; cbn [acronym_lines count_from]; [exists [], []; split; [reflexivity|]; split; [constructor|apply lex0_nil]|].
  destruct (IH (n + 1) ltac:(lia) ltac:(lia)) as (text & items & EL & F2 & LX). destruct (H n ltac:(lia)) as (nm & t & ix & A & W & S). destruct (line_read nm t W S) as (tp & TP & LL).
  pose proof A as (s & EA). unfold acronym_line. rewrite EA. cbn [obind ret_is r_strs hd nth]. cbv zeta. rewrite EL. cbn [obind].
  eexists. exists ((words [s2z "Acronym"; nm] ++ tp ++ [p_mark 59]) :: items). split; [reflexivity|]. split; [constructor; [|exact F2]|cbn [List.concat]; apply lex0_app; assumption].
  exists nm, t, ix, tp. auto.
Qed.

(** ** Theorems *)

(** The property would be that every acronym of the file is declared, in the order of the
    numbers.  What holds: one declaration without a name comes first, and the declarations of
    all acronyms but the last follow.  The names must be words, which gdxAcronymAdd does not
    check. *)
Theorem C69_acronyms_partial : forall z name prod compr cs rs st st2 k, reopened z name prod compr cs rs st st2 -> acronyms z st2 k -> 0 < k ->
  (forall n, 1 <= n < k -> exists nm t ix, acronym_is z st2 n nm t ix /\ plain_word nm) ->
  exists text items, write_acronyms z st2 = Done text /\ Forall2 (declared z st2) (numbers (k - 1)) items /\
    parts_of text = [p_text (s2z "Acronym"); p_mark 59] ++ List.concat items.
Proof.
  intros z name prod compr cs rs st st2 k RO (sk & K) K0 H.
  assert (H' : forall n, 1 <= n < k -> exists nm t ix, acronym_is z st2 n nm t ix /\ plain_word nm /\ safe_text t).
  { intros n N. destruct (H n N) as (nm & t & ix & A & W). exists nm, t, ix. split; [exact A|]. split; [exact W|]. eapply reopened_texts; eassumption. }
  destruct (lines_read z st2 k H' (Z.to_nat (k - 1)) 1 ltac:(lia) ltac:(lia)) as (text & items & EL & F2 & LX).
  unfold write_acronyms. rewrite K. cbn [obind ret r_code]. cbv zeta. destruct (Z.leb_spec k 0); [lia|]. replace (Z.to_nat k) with (S (Z.to_nat (k - 1))) by lia. cbn [acronym_lines].
  destruct (reopened_tables _ _ _ _ _ _ _ _ RO) as (D & _). unfold acronym_line at 1. cbn [exec]. unfold acronym_get_info. rewrite D. cbn [d_nn loaded negb]. rewrite <- D. rewrite znth_None by lia. cbn [obind ret_is r_strs hd nth]. cbv zeta.
  change (0 + 1) with 1. rewrite EL. cbn [obind]. eexists. exists items. split; [reflexivity|]. split; [exact F2|].
  unfold parts_of. rewrite <- (app_nil_r (_ ++ text)) || idtac. pose proof (LX []) as L. rewrite !app_nil_r in L. cbn [app]. cbn. rewrite ?app_nil_r. cbn [lex] in L. rewrite ?app_nil_r in L. rewrite L. reflexivity.
Qed.
(** Without acronyms nothing is written. *)
Theorem C69_none : forall z st, acronyms z st 0 -> write_acronyms z st = Done [].
Proof. intros z st (s & K). unfold write_acronyms. rewrite K. reflexivity. Qed.
(** A file with one acronym: it is not declared. *)
Theorem C69_acronyms_refuted : exists name prod compr cs rs st st2 nm t ix text, reopened rle_zlib name prod compr cs rs st st2 /\ acronyms rle_zlib st2 1 /\ acronym_is rle_zlib st2 1 nm t ix /\
  write_acronyms rle_zlib st2 = Done text /\ ~ In (p_text nm) (parts_of text).
Proof.
  do 6 eexists. exists case_read, (s2z "monday"), (s2z "first day"), 7, ([10] ++ s2z "Acronym ;" ++ [10]). split; [exact case_reopened|]. split; [ans|]. split; [ans|]. split; [vm_compute; reflexivity|].
  vm_compute. intros [X|[X|[]]]; discriminate X.
Qed.

(** ** Cases *)

Definition da_calls : list call := [gdxAcronymAdd (s2z "monday") (s2z "first day") 7; gdxAcronymAdd (s2z "tuesday") (s2z "(a/b)") 8; gdxAcronymAdd (s2z "friday") [] 9].
Definition da_start : gst := state_of (exec rle_zlib (gdxOpenWriteEx (s2z "f.gdx") (s2z "a test") 1) case_object).
Definition da_answers : list resp := answer_of (run rle_zlib da_calls da_start).
Definition da_written : gst := state_of (run rle_zlib da_calls da_start).
Definition da_closed : gst := state_of (exec rle_zlib gdxClose da_written).
Definition da_read : gst := state_of (exec rle_zlib (gdxOpenReadEx (s2z "f.gdx") 0) da_closed).
Definition da_file : list Z := match disk_get (e_disk (g_env da_closed)) (s2z "f.gdx") with Some F => F | None => [] end.
Lemma da_reopened : reopened rle_zlib (s2z "f.gdx") (s2z "a test") 1 da_calls da_answers da_written da_read.
Proof.
  split; [apply writes_made; exists case_object, da_start, (ret_i 1 [0]); split; [vm_compute; reflexivity|]; split; [reflexivity|]; split; [apply str_okb_ok; vm_compute; reflexivity|];
    split; [apply calls_okb_ok; vm_compute; reflexivity|]; vm_compute; reflexivity|]. split; [vm_compute; reflexivity|].
  exists (ret 0), da_closed, da_file, da_closed, 0.
  split; [vm_compute; reflexivity|]. split; [vm_compute; reflexivity|]. split; [apply counters_fit_test; vm_compute; reflexivity|].
  split; [vm_compute; reflexivity|]. split; [split; vm_compute; reflexivity|]. split; [vm_compute; reflexivity|]. split; [reflexivity|].
  vm_compute. reflexivity.
Qed.
Example C69_case : exists text items, write_acronyms rle_zlib da_read = Done text /\ Forall2 (declared rle_zlib da_read) (numbers 2) items /\
  parts_of text = [p_text (s2z "Acronym"); p_mark 59] ++ List.concat items.
Proof.
  refine (C69_acronyms_partial rle_zlib _ _ _ _ _ _ da_read 3 da_reopened _ _ _); [ans|lia|]. intros n N. assert (C : n = 1 \/ n = 2) by lia. destruct C as [->| ->].
  - exists (s2z "monday"), (s2z "first day"), 7. split; [ans|]. split; [discriminate|repeat constructor].
  - exists (s2z "tuesday"), (s2z "(a/b)"), 8. split; [ans|]. split; [discriminate|repeat constructor].
Qed.
Example C69_case_text : write_acronyms rle_zlib da_read =
  Done ([10] ++ s2z "Acronym ;" ++ [10] ++ s2z "Acronym monday first day;" ++ [10] ++ s2z "Acronym tuesday '(a/b)';" ++ [10]).
Proof. vm_compute. reflexivity. Qed.
Example C69_case_none : write_acronyms rle_zlib dc_read = Done [].
Proof. apply C69_none. ans. Qed.

(** The condition on the names is needed: gdxAcronymAdd takes any name, and the declaration
    of one that is not a word reads as another name with a text. *)
Definition dn_calls : list call := [gdxOpenWriteEx (s2z "c.gdx") (s2z "test") 0; gdxAcronymAdd (s2z "a b") [] 7; gdxAcronymAdd (s2z "c") [] 8; gdxClose; gdxOpenReadEx (s2z "c.gdx") 0].
Definition dn_read : gst := state_of (run rle_zlib dn_calls (new_object [])).
Theorem C69_name_refuted : exists rs st text, run rle_zlib dn_calls (new_object []) = Done (rs, st) /\ acronyms rle_zlib st 2 /\ acronym_is rle_zlib st 1 (s2z "a b") [] 7 /\
  write_acronyms rle_zlib st = Done text /\ parts_of text = [p_text (s2z "Acronym"); p_mark 59] ++ words [s2z "Acronym"; s2z "a"; s2z "b"] ++ [p_mark 59].
Proof.
  exists (answer_of (run rle_zlib dn_calls (new_object []))), dn_read, ([10] ++ s2z "Acronym ;" ++ [10] ++ s2z "Acronym a b;" ++ [10]).
  split; [vm_compute; reflexivity|]. split; [ans|]. split; [ans|]. split; vm_compute; reflexivity.
Qed.

Print Assumptions C69_acronyms_partial.
Print Assumptions C69_none.
Print Assumptions C69_acronyms_refuted.
Print Assumptions C69_name_refuted.
