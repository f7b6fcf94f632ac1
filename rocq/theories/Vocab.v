(** * Vocabulary: the words in which the properties are stated

    A program is a list of calls; what it observes are the answers.  The small definitions
    here are used in the statements of the theorems of the Prop files. *)

From Verif Require Import Base Prim Values Records LinkedData StrHash IntMap Strings AStream BufStream State
  FileImage ApiCore ApiFile ApiWrite ApiRead Api FileFacts StreamFacts OpenFacts DicInv Footprint SessInv FileFlow Sessions.

(** The call [c], made now, would answer [r]. *)
Definition answers (z : zlib) (st : gst) (c : call) (r : resp) : Prop := exists st', exec z c st = Done (r, st').

(** The same call answers the same now and then. *)
Definition same_answer (z : zlib) (a b : gst) (c : call) : Prop := forall r, answers z a c r <-> answers z b c r.

(** The calls [cs], none of which opens or closes a file, lead from [a] to [b] (with
    arguments as the C types allow them). *)
Definition during (z : zlib) (cs : list call) (a b : gst) : Prop :=
  forallb session_call cs = true /\ Forall call_ok cs /\ exists rs, run z cs a = Done (rs, b).

(** The object after gdxOpenWriteEx succeeded and the calls [cs] were made; likewise after
    gdxOpenReadEx. *)
Definition in_new_writing (z : zlib) (cs : list call) (st : gst) : Prop := exists st0, created z st0 /\ during z cs st0 st.
Definition in_reading (z : zlib) (cs : list call) (st : gst) : Prop := exists st0, opened_to_read z st0 /\ during z cs st0 st.

(** gdxUELRegisterMap, or gdxRenameUEL, is not among the calls. *)
Definition no_map (cs : list call) : Prop := Forall (fun c => maps c = false) cs.
Definition no_rename (cs : list call) : Prop := Forall (fun c => renames c = false) cs.

(** ** Passing from the elementary changes to sequences of calls *)

Section M.
Context (z : zlib).

Lemma dic_closed : forall c (I : dic -> Prop), (forall d d', datom c d d' -> I d -> I d') ->
  forall a b, I (g_dic a) -> atom c a b -> I (g_dic b).
Proof.
  intros c I CL a b Q A. destruct A; try exact Q.
  - cbn. eapply CL; [eapply numbered_datom; eassumption|exact Q].
  - cbn. eapply CL; eassumption.
  - unfold set_error. destruct (n =? 0); exact Q.
Qed.

Lemma during_dic : forall (I : dic -> Prop) cs a b, (forall c d d', In c cs -> datom c d d' -> I d -> I d') ->
  during z cs a b -> I (g_dic a) -> I (g_dic b).
Proof.
  intros I cs a b CL (SC & OK & rs & R) Q.
  eapply (run_done z (fun st => I (g_dic st))); try eassumption.
  - intros x X. exact X.
  - intros c x y IN. eapply dic_closed. intros d d'. apply CL. exact IN.
Qed.

Lemma during_state : forall (P : gst -> Prop) cs a b, (forall c a b, In c cs -> P a -> atom c a b -> P b) ->
  (forall a, P a -> P (upd_err (set_r_last 0) a)) -> during z cs a b -> P a -> P b.
Proof. intros P cs a b CL LE (SC & OK & rs & R) Q. eapply run_done; eassumption. Qed.

Lemma during_nil : forall a, during z [] a a.
Proof. intros a. repeat split; try constructor. exists []. reflexivity. Qed.

(** The stream stays open. *)
Lemma atom_stream : forall c a b, has_stream a -> atom c a b -> has_stream b.
Proof.
  intros c a b Q A. destruct A; try exact Q.
  - eexists. reflexivity.
  - unfold set_error. destruct (n =? 0); exact Q.
Qed.
Lemma during_stream : forall cs a b, during z cs a b -> has_stream a -> has_stream b.
Proof. intros cs a b D Q. eapply during_state; [intros c x y _; apply atom_stream|intros ? X; exact X|exact D|exact Q]. Qed.

(** One call. *)
Lemma call_dic : forall (I : dic -> Prop) c r a b, session_call c = true -> call_ok c -> exec z c a = Done (r, b) ->
  (forall d d', datom c d d' -> I d -> I d') -> I (g_dic a) -> I (g_dic b).
Proof.
  intros I c r a b S O E CL Q. eapply (during_dic I [c]); [|split; [cbn; rewrite S; reflexivity|split; [repeat constructor; exact O|]]|exact Q].
  - intros c' d d' [<-|[]]. apply CL.
  - exists [r]. cbn [run]. rewrite E. reflexivity.
Qed.
End M.

Lemma run_app : forall z a b st r1 s1 r2 s2, run z a st = Done (r1, s1) -> run z b s1 = Done (r2, s2) -> run z (a ++ b) st = Done (r1 ++ r2, s2).
Proof.
  induction a as [|c a IH]; intros b st r1 s1 r2 s2 A B; cbn [run app] in *.
  - injection A as <- <-. exact B.
  - destruct (exec z c st) as [[r s]|]; [|discriminate]. cbn [obind] in *.
    destruct (run z a s) as [[rs s']|] eqn:R; [|discriminate]. cbn [obind] in *. injection A as <- <-.
    rewrite (IH b s rs s' r2 s2 R B). reflexivity.
Qed.
Lemma during_snoc : forall z cs a b c r b', during z cs a b -> session_call c = true -> call_ok c ->
  exec z c b = Done (r, b') -> during z (cs ++ [c]) a b'.
Proof.
  intros z cs a b c r b' (H1 & H2 & rs & H4) S O E. split.
  { rewrite forallb_app, H1. cbn. rewrite S. reflexivity. }
  split. { apply Forall_app. auto. }
  exists (rs ++ [r]). eapply run_app; [exact H4|]. cbn [run]. rewrite E. reflexivity.
Qed.
Lemma during_trans : forall z cs ds a b c, during z cs a b -> during z ds b c -> during z (cs ++ ds) a c.
Proof.
  intros z cs ds a b c (H1 & H2 & r1 & H3) (K1 & K2 & r2 & K3). split; [rewrite forallb_app, H1, K1; reflexivity|].
  split; [apply Forall_app; auto|]. exists (r1 ++ r2). eapply run_app; eassumption.
Qed.
