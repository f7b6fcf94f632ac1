(** * C71: what gdxSymbolGetDomain and gdxSymbolGetDomainX can answer *)

From Coq Require Import String.
From Verif Require Import Base Prim Values Records LinkedData StrHash IntMap Strings AStream BufStream State
  FileImage ApiCore ApiFile ApiWrite ApiRead Api FileFacts BlockFacts StreamFacts OpenFacts DicInv WriteInv WriteSteps Journal WriteCalls WriteTrace
  Footprint SessInv FileFlow Sessions Vocab PropErr Reopen ReadFacts ReadRecs ReadLoops Cases PropNames PropMeta PropDomain DomRefs.
Open Scope Z_scope.
Open Scope list_scope.

(** ** Specification *)

(** An entry of a domain is "*" or an identifier. *)
Definition domain_name (s : str) : Prop := s = s2z "*" \/ wf_ident s.
(** The entries that gdxSymbolGetDomain gives by number and gdxSymbolGetDomainX by name:
    0 is "*", any other number is the number of a symbol, a set or an alias, and goes with
    its name. *)
Definition named (z : zlib) (st : gst) (v : Z) (s : str) : Prop :=
  v = 0 /\ s = s2z "*" \/ exists d ty, symbol z st v s d ty /\ (ty = dt_set \/ ty = dt_alias).
(** For symbol [n] of dimension [dim] both calls answer. The numbers are one per dimension;
    the names are one per dimension; with result 1 all names are "*", and with result 3 they
    are the names of the numbers. *)
Definition domain_answers (z : zlib) (st : gst) (n dim : Z) : Prop :=
  exists nrs c doms, answers z st (gdxSymbolGetDomain n) (ret_i 1 nrs) /\ answers z st (gdxSymbolGetDomainX n) (ret_s c doms) /\
    zlen nrs = dim /\ zlen doms = dim /\ Forall (fun v => v = 0 \/ exists s d ty, symbol z st v s d ty /\ (ty = dt_set \/ ty = dt_alias)) nrs /\ Forall domain_name doms /\
    (c = 1 /\ Forall (fun s => s = s2z "*") doms /\ Forall (fun v => v = 0) nrs \/ c = 2 \/ c = 3 /\ Forall2 (named z st) nrs doms).

(** ** Proofs *)

Section R.
Context (z : zlib).
Lemma names_named : forall st l, Forall (dom_set (g_dic st)) l -> Forall (fun v => 0 <= v <= sym_count (g_dic st)) l ->
  exists ss, dom_names (sym_name (g_dic st)) l = Done ss /\ Forall2 (named z st) l ss.
Proof.
  intros st l DS F0. revert DS. induction F0 as [|v l V F IH]; intros DS; [exists []; split; [reflexivity|constructor]|]. inversion DS as [|? ? DV DS']; subst. destruct (IH DS') as (ss & E & F2). cbn [dom_names]. destruct (Z.eqb_spec v 0) as [->|N].
  - cbn [obind]. rewrite E. eexists. split; [reflexivity|]. constructor; [left; auto|exact F2].
  - destruct DV as [->|([nm s] & Z & T)]; [contradiction|]. unfold sym_name at 1. rewrite Z. cbn [option_map fst obind]. rewrite E. cbn [obind]. eexists. split; [reflexivity|]. constructor; [|exact F2].
    right. exists (Z.of_nat (sy_dim s)), (sy_type s). split; [apply symbol_iff; exists s; auto|exact T].
Qed.
Lemma both_answer : forall st n id dim typ, dom_refs (g_dic st) -> dom_sets (g_dic st) -> names_inv (g_dic st) -> d_nn (g_dic st) = true -> symbol z st n id dim typ -> domain_answers z st n dim.
Proof.
  intros st n id dim typ R DS NI NN SY. destruct (get_domain_ok z _ _ _ _ _ R NI NN SY) as (nrs & A & LN & _). pose proof (domain_sets z st n nrs DS A) as FN. destruct (get_domain_x_ok z _ _ _ _ _ R NI NN SY) as (c & doms & B & C & LD & FD).
  exists nrs, c, doms. repeat (split; [assumption|]). destruct A as (s1 & A), B as (s2 & B). apply symbol_iff in SY. destruct SY as (s & ZN & -> & _). destruct R as [R G]. pose proof (R _ _ ZN) as [R1 _]. cbn [snd] in R1.
  cbn [exec] in A, B. unfold symbol_get_domain in A. unfold symbol_get_domain_x in B. cbv zeta in B. rewrite NN in A, B. cbn [negb] in A, B. unfold get_sym in A, B. rewrite ZN in A, B. cbn [option_map snd] in A, B.
  destruct (sy_dstrs s) as [ld|].
  - destruct (dom_names _ _) in B; [|discriminate B]. injection B as <- _ _. right. left. reflexivity.
  - destruct (sy_doms s) as [l|] eqn:ED.
    + injection A as <- _. destruct (R1 l eq_refl) as [_ F]. destruct (names_named st l (DS _ _ _ ZN ED) F) as (ss & E & F2). rewrite E in B. injection B as <- <- _. right. right. split; [reflexivity|exact F2].
    + injection A as <- _. injection B as <- <- _. left. split; [reflexivity|]. split; apply Forall_forall; intros v V; apply repeat_spec in V; exact V.
Qed.
End R.

(** Both calls answer so for every symbol, at any time while a file is written, *)
Theorem C71_writing : forall z cs st n id dim typ, in_writing z cs st -> symbol z st n id dim typ -> domain_answers z st n dim.
Proof.
  intros z cs st n id dim typ W SY. eapply both_answer; [eapply writing_refs; exact W|eapply writing_sets; exact W|eapply writing_names; exact W| |exact SY].
  revert W. apply (writing_dic z (fun d => d_nn d = true)).
  - intros s C. apply (created_dic z s C).
  - reflexivity.
  - intros c d d' A <-. apply (flags_keep _ _ _ A).
Qed.
(** and for every symbol of a file that is read. *)
Theorem C71_reading : forall z name prod compr cs rs st st2 n id dim typ, reopened z name prod compr cs rs st st2 -> symbol z st2 n id dim typ -> domain_answers z st2 n dim.
Proof.
  intros z name prod compr cs rs st st2 n id dim typ RO SY. destruct (reopened_refs _ _ _ _ _ _ _ _ RO) as (R & NI & NN). pose proof (reopened_sets _ _ _ _ _ _ _ _ RO). eapply both_answer; eassumption.
Qed.

(** ** Cases *)

Example C71_case_writing : domain_answers rle_zlib case_written 6 2.
Proof. refine (C71_writing _ _ _ 6 (s2z "dist") 2 dt_par case_writing _). split; [lia|ans]. Qed.
Example C71_case_reading : domain_answers rle_zlib case_read 5 1.
Proof. refine (C71_reading _ _ _ _ _ _ _ _ 5 (s2z "cap") 1 dt_par case_reopened _). split; [lia|ans]. Qed.
(** A domain, a relaxed domain and none. *)
Example C71_case_answers : answers rle_zlib case_read (gdxSymbolGetDomainX 5) (ret_s 3 [s2z "I"]) /\ answers rle_zlib case_read (gdxSymbolGetDomainX 6) (ret_s 2 [s2z "I"; s2z "*"]) /\
  answers rle_zlib case_read (gdxSymbolGetDomainX 7) (ret_s 1 [s2z "*"]).
Proof. repeat split; ans. Qed.

Print Assumptions C71_writing.
Print Assumptions C71_reading.
