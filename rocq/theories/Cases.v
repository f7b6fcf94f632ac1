(** * Cases: concrete sessions

    Used beside the theorems to show that their hypotheses are met. *)

From Coq Require Import String.
From Verif Require Import Base Prim Values Records LinkedData StrHash IntMap Strings AStream BufStream State
  FileImage ApiCore ApiFile ApiWrite ApiRead Api FileFacts StreamFacts OpenFacts DicInv WriteTrace Footprint SessInv FileFlow Sessions Vocab Reopen.
Open Scope Z_scope.
Open Scope list_scope.

(** Boolean versions of the side conditions. *)
Definition str_okb (s : str) : bool := forallb (fun c => (1 <=? c) && (c <? 256)) s.
Definition u64_okb (v : Z) : bool := (0 <=? v) && (v <? 2^64).
Definition start_okb (n t : str) (d ty u : Z) : bool := str_okb n && str_okb t && int_okb d && int_okb ty && int_okb u.
Definition call_okb (c : call) : bool :=
  match c with
  | gdxOpenWriteEx n p k => str_okb n && str_okb p && int_okb k
  | gdxOpenReadEx n k => str_okb n && int_okb k
  | gdxOpenAppend n => str_okb n
  | gdxDataWriteRawStart n t d ty u | gdxDataWriteMapStart n t d ty u | gdxDataWriteStrStart n t d ty u => start_okb n t d ty u
  | gdxDataWriteRawStartKeyBounds n t d ty u lo hi => start_okb n t d ty u && forallb int_okb lo && forallb int_okb hi
  | gdxDataWriteRaw k v | gdxDataWriteMap k v => forallb int_okb k && forallb u64_okb v
  | gdxDataWriteStr k v => forallb str_okb k && forallb u64_okb v
  | gdxSymbolSetDomain ids => forallb str_okb ids
  | gdxSymbolSetDomainX n ids => int_okb n && forallb str_okb ids
  | gdxAddAlias a b => str_okb a && str_okb b
  | gdxSymbolAddComment n t => int_okb n && str_okb t
  | gdxAddSetText t => str_okb t
  | gdxSetTextNodeNr n k => int_okb n && int_okb k
  | gdxUELRegisterRaw s | gdxUELRegisterStr s => str_okb s
  | gdxUELRegisterMap n s => int_okb n && str_okb s
  | gdxRenameUEL o n => str_okb o && str_okb n
  | gdxAcronymAdd n t i => str_okb n && str_okb t && int_okb i
  | gdxAcronymSetInfo k n t i => int_okb k && str_okb n && str_okb t && int_okb i
  | gdxSetSpecialValues v | gdxSetReadSpecialValues v => forallb u64_okb v
  | _ => true
  end.
Lemma str_okb_ok : forall s, str_okb s = true -> str_ok s.
Proof. intros s H. apply str_ok_test. exact H. Qed.
Lemma all_ok : forall {A} (f : A -> bool) (P : A -> Prop) l, (forall a, f a = true -> P a) -> forallb f l = true -> Forall P l.
Proof. intros A f P l H F. rewrite forallb_forall in F. apply Forall_forall. intros a I. apply H, F, I. Qed.
Lemma int_okb_ok : forall n, int_okb n = true -> int_ok n.
Proof. intros n H. unfold int_okb in H. unfold int_ok. lia. Qed.
Lemma u64_okb_ok : forall n, u64_okb n = true -> u64_ok n.
Proof. intros n H. unfold u64_okb in H. unfold u64_ok. lia. Qed.
Lemma start_okb_ok : forall n t d ty u, start_okb n t d ty u = true -> start_ok n t d ty u.
Proof.
  intros n t d ty u H. unfold start_okb in H. rewrite !Bool.andb_true_iff in H. destruct H as ((((A & B) & C) & D) & E).
  split; [apply str_okb_ok; exact A|]. split; [apply str_okb_ok; exact B|]. split; [apply int_okb_ok; exact C|]. split; apply int_okb_ok; assumption.
Qed.
Lemma call_okb_ok : forall c, call_okb c = true -> call_ok c.
Proof.
  intros c H. destruct c; cbn [call_okb call_ok] in *; rewrite ?Bool.andb_true_iff in H;
    repeat match goal with H : _ /\ _ |- _ => destruct H end; repeat match goal with |- _ /\ _ => split end;
    try exact I;
    lazymatch goal with
    | |- str_ok _ => apply str_okb_ok; assumption
    | |- int_ok _ => apply int_okb_ok; assumption
    | |- start_ok _ _ _ _ _ => apply start_okb_ok; assumption
    | |- Forall str_ok _ => eapply all_ok; [apply str_okb_ok|assumption]
    | |- Forall int_ok _ => eapply all_ok; [apply int_okb_ok|assumption]
    | |- Forall u64_ok _ => eapply all_ok; [apply u64_okb_ok|assumption]
    end.
Qed.
Definition calls_okb (cs : list call) : bool := forallb (fun c => keeps_writing c && call_okb c) cs.
Lemma calls_okb_ok : forall cs, calls_okb cs = true -> Forall (fun c => keeps_writing c = true /\ call_ok c) cs.
Proof. intros cs H. eapply all_ok; [|exact H]. intros c E. apply Bool.andb_true_iff in E. destruct E as [A B]. split; [exact A|apply call_okb_ok; exact B]. Qed.

Definition state_of {A} (x : outcome (A * gst)) : gst := match x with Done (_, s) => s | UB => new_object [] end.
Definition answer_of {A} (x : outcome (list A * gst)) : list A := match x with Done (a, _) => a | UB => [] end.

Definition dbl_1 : Z := 4607182418800017408.
Definition dbl_2_5 : Z := 4612811918334230528.

(** A file with labels, a set with texts, a parameter over it with a domain, a raw
    parameter, a mapped variable, an alias, a relaxed domain, comments and acronyms. *)
Definition case_calls : list call :=
  [gdxUELRegisterRawStart; gdxUELRegisterRaw (s2z "Seattle"); gdxUELRegisterRaw (s2z "San-Diego "); gdxUELRegisterDone;
   gdxUELRegisterStrStart; gdxUELRegisterStr (s2z "new york"); gdxUELRegisterStr (s2z "seattle"); gdxUELRegisterDone;
   gdxAddSetText (s2z "a text"); gdxAddSetText (s2z "another 'text"); gdxAddSetText (s2z "a text");
   gdxAcronymAdd (s2z "monday") (s2z "first day") 7;
   gdxDataWriteStrStart (s2z "I") (s2z "canning ""plants""") 1 dt_set 0;
   gdxDataWriteStr [s2z "Seattle"] [dbl_1]; gdxDataWriteStr [s2z "san-diego"] [0]; gdxDataWriteDone;
   gdxSymbolAddComment 1 (s2z "first comment"); gdxSymbolAddComment 1 (s2z "second comment");
   gdxAddAlias (s2z "I") (s2z "II"); gdxAddAlias (s2z "III") (s2z "ii"); gdxAddAlias (s2z "*") (s2z "U");
   gdxDataWriteStrStart (s2z "cap") (s2z "capacity") 1 dt_par 0; gdxSymbolSetDomain [s2z "I"];
   gdxDataWriteStr [s2z "San-Diego"] [dbl_2_5]; gdxDataWriteStr [s2z "seattle"] [dbl_1]; gdxDataWriteDone;
   gdxDataWriteRawStart (s2z "dist") (s2z "distances") 2 dt_par 0;
   gdxDataWriteRaw [1; 3] [dbl_2_5]; gdxDataWriteRaw [2; 1] [dbl_1]; gdxDataWriteRaw [2; 1] [dbl_1]; gdxDataWriteDone;
   gdxSymbolSetDomainX 6 [s2z "I"; s2z "*"];
   gdxDataWriteMapStart (s2z "X") (s2z "shipment") 1 dt_var 3; gdxDataWriteMap [1] [dbl_1; 0; 0; 0; dbl_2_5]; gdxDataWriteDone;
   gdxSymbolAddComment 6 (s2z "a comment")].
Definition case_object : gst := new_object [].
Definition case_start : gst := state_of (exec rle_zlib (gdxOpenWriteEx (s2z "f.gdx") (s2z "a test") 1) case_object).
Definition case_answers : list resp := answer_of (run rle_zlib case_calls case_start).
Definition case_written : gst := state_of (run rle_zlib case_calls case_start).
Definition case_closed : gst := state_of (exec rle_zlib gdxClose case_written).
Definition case_read : gst := state_of (exec rle_zlib (gdxOpenReadEx (s2z "f.gdx") 0) case_closed).
Definition case_file : list Z := match disk_get (e_disk (g_env case_closed)) (s2z "f.gdx") with Some F => F | None => [] end.


Lemma case_new : writes_new rle_zlib (s2z "f.gdx") (s2z "a test") 1 case_calls case_answers case_written.
Proof.
  exists case_object, case_start, (ret_i 1 [0]). split; [vm_compute; reflexivity|]. split; [reflexivity|]. split; [apply str_okb_ok; vm_compute; reflexivity|].
  split; [apply calls_okb_ok; vm_compute; reflexivity|]. vm_compute. reflexivity.
Qed.
Lemma case_writes : writes rle_zlib (s2z "f.gdx") (s2z "a test") 1 case_calls case_answers case_written.
Proof. apply writes_made, case_new. Qed.
Lemma counters_fit_test : forall d, (sym_count d <=? INT_MAX) && (uel_count d <=? INT_MAX) && (zlen (texts_of d) <=? INT_MAX) &&
  (zlen (d_acros d) <=? INT_MAX) && (zlen (d_dstrs d) <=? INT_MAX) &&
  forallb (fun e => (sy_count (snd e) <=? INT_MAX) && (sy_errs (snd e) <=? INT_MAX) && (zlen (sy_comments (snd e)) <=? INT_MAX)) (d_names d) = true -> counters_fit d.
Proof.
  intros d H. rewrite !Bool.andb_true_iff in H. destruct H as (((((A & B) & C) & D) & E) & F). unfold counters_fit.
  repeat (split; [lia|]). eapply all_ok; [|exact F]. intros e X. cbv beta in *. lia.
Qed.
Lemma case_reopened : reopened rle_zlib (s2z "f.gdx") (s2z "a test") 1 case_calls case_answers case_written case_read.
Proof.
  split; [apply case_writes|]. split; [vm_compute; reflexivity|].
  exists (ret 0), case_closed, case_file, case_closed, 0.
  split; [vm_compute; reflexivity|]. split; [vm_compute; reflexivity|]. split; [apply counters_fit_test; vm_compute; reflexivity|].
  split; [vm_compute; reflexivity|]. split; [split; vm_compute; reflexivity|]. split; [vm_compute; reflexivity|]. split; [reflexivity|].
  vm_compute. reflexivity.
Qed.
Ltac ans := eexists; vm_compute; reflexivity.
Lemma case_writing : in_writing rle_zlib case_calls case_written.
Proof. eapply writes_in_writing. apply case_writes. Qed.
Lemma case_new_writing : in_new_writing rle_zlib case_calls case_written.
Proof. eapply writes_in_new_writing. apply case_new. Qed.
Lemma case_reading : in_reading rle_zlib [] case_read.
Proof.
  exists case_read. split; [|split; [vm_compute; reflexivity|split; [apply Forall_nil|exists []; unfold run; generalize case_read; intros; reflexivity]]].
  exists case_closed, (s2z "f.gdx"), 0, (ret_i 1 [0]). split; [vm_compute; reflexivity|reflexivity].
Qed.
(** [during], for concrete calls. *)
Lemma during_test : forall z cs a rs b, forallb session_call cs && forallb call_okb cs = true -> run z cs a = Done (rs, b) -> during z cs a b.
Proof.
  intros z cs a rs b H R. apply Bool.andb_true_iff in H. destruct H as [H1 H2]. split; [exact H1|]. split; [|eauto].
  eapply all_ok; [|exact H2]. apply call_okb_ok.
Qed.
