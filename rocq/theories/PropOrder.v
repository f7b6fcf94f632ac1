(** * C24: files of machines with the other byte order

    [z_host z] is the byte order of the machine on which the calls are made.  What is read
    from a file depends on the byte order of the file only: the theorems of the other files
    hold for every [z], that is for a file that is written and read on a machine of either
    byte order, and here it is shown that the reader may be another machine than the
    writer. *)

From Coq Require Import String.
From Verif Require Import Base Prim Values Records LinkedData StrHash IntMap Strings AStream BufStream State
  FileImage ApiCore ApiFile ApiWrite ApiRead Api FileFacts BlockFacts StreamFacts OpenFacts DicInv WriteInv WriteSteps Journal WriteCalls WriteTrace
  Footprint SessInv FileFlow Sessions Vocab Reopen ReadFacts ReadRecs ReadLoops Cases PropNames PropMeta Segment PropTexts Contents Wrote PropRead Readers PropAppend.
Open Scope Z_scope.
Open Scope list_scope.

(** ** Specification *)

(** The same library on a machine with the byte order [bo]. *)
Definition machine (z : zlib) (bo : border) : zlib := mkZ bo (zc z) (zd z) (zc_bytes z) (zd_zc z).
(** Calls that can write to a file. *)
Definition may_write (c : call) : bool :=
  match c with
  | gdxOpenWriteEx _ _ _ | gdxOpenAppend _ | gdxClose | gdxFree
  | gdxDataWriteRawStart _ _ _ _ _ | gdxDataWriteRawStartKeyBounds _ _ _ _ _ _ _ | gdxDataWriteRaw _ _
  | gdxDataWriteMapStart _ _ _ _ _ | gdxDataWriteStrStart _ _ _ _ _ | gdxDataWriteDone => true
  | _ => false
  end.
Definition only_reads (cs : list call) : Prop := Forall (fun c => may_write c = false) cs.

(** The memory of a machine: the bytes of a value, and the value of bytes.  On a machine
    that is big endian ([true]) the most significant byte comes first. *)
Definition mem_bytes (big : bool) (n : nat) (v : Z) : list Z := if big then rev (le_bytes n v) else le_bytes n v.
Definition mem_value (big : bool) (b : list Z) : Z := le_val (if big then rev b else b).

(** gmsstrm.hpp 296-317 (initOrderCommon), on the pattern's bytes: [false]: take the bytes
    as they are, [true]: reverse them, [None]: PAT_BAD_ORDER. *)
Definition find_order (big : bool) (pat : Z) (b : list Z) : option bool :=
  if mem_value big b =? pat then Some false
  else if mem_value big (rev b) =? pat then Some true else None.
(** gmsstrm.hpp 280-293 (ReadValueOrdered), gmsstrm.cpp reverseBytesMax8. *)
Definition read_ordered (big flip : bool) (b : list Z) : Z := mem_value big (if flip then rev b else b).

(** ** Values *)

Lemma mem_back : forall big n v, 0 <= v < 256 ^ Z.of_nat n -> mem_value big (mem_bytes big n v) = v.
Proof. intros big n v H. unfold mem_value, mem_bytes. destruct big; rewrite ?rev_involutive, le_val_bytes; apply Z.mod_small; exact H. Qed.

(** Whatever the byte orders of the two machines: once the pattern has been seen, every
    value comes back. *)
Theorem C24_between_machines : forall (writer reader : bool) (n : nat) (pat : Z),
  (n = 2%nat /\ pat = 0x1234) \/ (n = 4%nat /\ pat = 0x12345678) \/ (n = 8%nat /\ pat = PI_BITS) ->
  exists flip, find_order reader pat (mem_bytes writer n pat) = Some flip /\
    forall m v, 0 <= v < 256 ^ Z.of_nat m -> read_ordered reader flip (mem_bytes writer m v) = v.
Proof.
  intros w r n pat H. exists (xorb w r). split.
  - destruct H as [[-> ->]|[[-> ->]|[-> ->]]]; destruct w, r; reflexivity.
  - intros m v B. unfold read_ordered, mem_value, mem_bytes. destruct w, r; cbn [xorb]; rewrite ?rev_involutive, le_val_bytes; apply Z.mod_small; exact B.
Qed.

(** The model's readers ([Prim]) are given the byte order of the file; this is what a
    machine of either byte order gets that finds out, from the patterns, whether it has to
    reverse the bytes. *)
Theorem C24_model_of_reading : forall (host : bool) (bo : border) (rest : list Z),
  (exists flip, find_order host 0x1234 (enc_word bo 0x1234) = Some flip /\
     forall b, length b = 2%nat -> p_word bo (b ++ rest) = Some (read_ordered host flip b, rest)) /\
  (exists flip, find_order host 0x12345678 (enc_int bo 0x12345678) = Some flip /\
     forall b, (length b = 4%nat -> p_int bo (b ++ rest) = Some (signed 32 (read_ordered host flip b), rest)) /\
               (length b = 8%nat -> p_i64 bo (b ++ rest) = Some (signed 64 (read_ordered host flip b), rest))) /\
  (exists flip, find_order host PI_BITS (enc_dbl bo PI_BITS) = Some flip /\
     forall b, length b = 8%nat -> p_dbl bo (b ++ rest) = Some (read_ordered host flip b, rest)).
Proof.
  intros h [w i d] rest. split; [|split].
  - exists (xorb w h). split; [destruct w, h, i, d; reflexivity|]. intros b L. unfold p_word. rewrite <- L. erewrite pbind_Some by apply ptake_app.
    destruct w, h; cbn [xorb bo_w swp]; unfold pret, read_ordered, mem_value; rewrite ?rev_involutive; reflexivity.
  - exists (xorb i h). split; [destruct w, h, i, d; reflexivity|]. intros b. split; intros L.
    + unfold p_int. rewrite <- L. erewrite pbind_Some by apply ptake_app.
      destruct i, h; cbn [xorb bo_i swp]; unfold pret, read_ordered, mem_value; rewrite ?rev_involutive; reflexivity.
    + unfold p_i64. rewrite <- L. erewrite pbind_Some by apply ptake_app.
      destruct i, h; cbn [xorb bo_i swp]; unfold pret, read_ordered, mem_value; rewrite ?rev_involutive; reflexivity.
  - exists (xorb d h). split; [destruct w, h, i, d; reflexivity|]. intros b L. unfold p_dbl. rewrite <- L. erewrite pbind_Some by apply ptake_app.
    destruct d, h; cbn [xorb bo_d swp]; unfold pret, read_ordered, mem_value; rewrite ?rev_involutive; reflexivity.
Qed.

(** ** Calls *)

Lemma machine_prepare : forall z bo, prepare_symbol_read (machine z bo) = prepare_symbol_read z.
Proof. reflexivity. Qed.
Lemma machine_loop : forall z bo, read_loop (machine z bo) = read_loop z.
Proof. reflexivity. Qed.
Lemma machine_fuel : forall z bo, read_fuel (machine z bo) = read_fuel z.
Proof. reflexivity. Qed.
Lemma machine_slice : forall z bo, read_slice (machine z bo) = read_slice z.
Proof. intros z bo. unfold read_slice. rewrite machine_prepare, machine_loop, machine_fuel. reflexivity. Qed.
Lemma machine_open : forall z bo, open_read (machine z bo) = open_read z.
Proof. reflexivity. Qed.

(** No call that only reads depends on the byte order of the machine on which it is made:
    it gives the same answers and leads to the same state.  Opening a file to read is such
    a call. *)
Theorem C24_any_machine : forall z bo c st, may_write c = false -> exec (machine z bo) c st = exec z c st.
Proof.
  intros z bo c st H.
  destruct c; try discriminate H; clear H; cbn [exec]; first [rewrite machine_open; reflexivity|rewrite machine_slice; reflexivity|reflexivity].
Qed.
Theorem C24_any_machine_calls : forall z bo cs st, only_reads cs -> run (machine z bo) cs st = run z cs st.
Proof.
  intros z bo cs. induction cs as [|c cs IH]; intros st H; [reflexivity|]. cbn [run]. rewrite (C24_any_machine _ _ _ _ (Forall_inv H)).
  destruct (exec z c st) as [[r s]|]; [|reflexivity]. cbn [obind]. rewrite (IH s (Forall_inv_tail H)). reflexivity.
Qed.
Lemma machine_machine : forall z a b, machine (machine z a) b = machine z b.
Proof. reflexivity. Qed.
Lemma answers_elsewhere : forall z w r st c a, may_write c = false -> answers (machine z w) st c a <-> answers (machine z r) st c a.
Proof. intros z w r st c a H. unfold answers. rewrite !C24_any_machine by exact H. reflexivity. Qed.
Lemma then_elsewhere : forall z w r cs rs a b, only_reads cs -> then_calls (machine z r) cs rs a b -> then_calls (machine z w) cs rs a b.
Proof. intros z w r cs rs a b O [F R]. split; [exact F|]. rewrite C24_any_machine_calls in * by exact O. exact R. Qed.
Lemma reads_elsewhere : forall z w r st n l, reads_all (machine z w) st n l -> reads_all (machine z r) st n l.
Proof.
  intros z w r st n l (s1 & s2 & s3 & A & B & C). exists s1, s2, s3. rewrite C24_any_machine in A, C by reflexivity.
  rewrite !C24_any_machine by reflexivity. rewrite C24_any_machine_calls in * by (apply Forall_forall; intros c I; apply repeat_spec in I; subst; reflexivity).
  split; [exact A|]. split; [exact B|exact C].
Qed.

(** Closing a file that is not being written. *)
Lemma machine_release : forall z bo, release (machine z bo) = release z.
Proof. reflexivity. Qed.
Lemma close_read : forall z st, mode_in (g_mode st) [fw_init; fw_raw_data; fw_map_data; fw_str_data] = false -> close z st = Done (release z st).
Proof.
  intros z st M. unfold close.
  assert (E1 : mode_in (g_mode st) [fw_raw_data; fw_map_data; fw_str_data] = false) by (destruct (g_mode st); try discriminate M; reflexivity).
  assert (E2 : mode_in (g_mode st) [fw_init] = false) by (destruct (g_mode st); try discriminate M; reflexivity).
  rewrite E1. cbn [obind]. rewrite E2. cbn [obind]. reflexivity.
Qed.
Theorem C24_closing : forall z bo c st, c = gdxClose \/ c = gdxFree -> mode_in (g_mode st) [fw_init; fw_raw_data; fw_map_data; fw_str_data] = false ->
  exec (machine z bo) c st = exec z c st.
Proof.
  intros z bo c st [-> | ->] M; cbn [exec].
  - rewrite !close_read by exact M. rewrite machine_release. reflexivity.
  - unfold destroy. destruct (mode_in (g_mode st) [f_not_open]); [reflexivity|]. rewrite !close_read by reflexivity. rewrite machine_release. reflexivity.
Qed.

(** ** Files *)

(** [st2] is an object on the machine [r] that has opened the file written on the machine
    [w]. *)
Definition opened_elsewhere (z : zlib) (w r : border) (name prod : str) (compr : Z) (cs : list call) (rs : list resp) (st st2 : gst) : Prop :=
  writes (machine z w) name prod compr cs rs st /\ between_symbols st /\
  exists a st1 F rd rm, exec (machine z w) gdxClose st = Done (a, st1) /\ disk_get (e_disk (g_env st1)) name = Some F /\
    counters_fit (g_dic st) /\ zlen F < 2^63 /\
    closed rd /\ disk_get (e_disk (g_env rd)) name = Some F /\ Z.rem rm 2 = 0 /\
    exec (machine z r) (gdxOpenReadEx name rm) rd = Done (ret_i 1 [0], st2).
Theorem C24_opening : forall z w r name prod compr cs rs st st2,
  opened_elsewhere z w r name prod compr cs rs st st2 <-> reopened (machine z w) name prod compr cs rs st st2.
Proof.
  intros z w r name prod compr cs rs st st2. unfold opened_elsewhere, reopened.
  assert (E : forall name rm rd, exec (machine z w) (gdxOpenReadEx name rm) rd = exec (machine z r) (gdxOpenReadEx name rm) rd)
    by (intros; rewrite !C24_any_machine; reflexivity).
  split; intros (A & B & a & st1 & F & rd & rm & H); (split; [exact A|]; split; [exact B|]; exists a, st1, F, rd, rm);
    [rewrite E|rewrite E in H]; exact H.
Qed.
(** It opens. *)
Theorem C24_opens : forall z w r name prod compr cs rs st a st1, writes (machine z w) name prod compr cs rs st -> between_symbols st ->
  exec (machine z w) gdxClose st = Done (a, st1) -> counters_fit (g_dic st) ->
  exists F, disk_get (e_disk (g_env st1)) name = Some F /\
    (zlen F < 2^63 -> forall rd rm, closed rd -> disk_get (e_disk (g_env rd)) name = Some F -> Z.rem rm 2 = 0 ->
     exists st2, exec (machine z r) (gdxOpenReadEx name rm) rd = Done (ret_i 1 [0], st2) /\ opened_elsewhere z w r name prod compr cs rs st st2).
Proof.
  intros z w r name prod compr cs rs st a st1 W B E CT. destruct (C20_closed_files_open _ _ _ _ _ _ _ _ _ W B E CT) as (_ & _ & F & D & H).
  exists F. split; [exact D|]. intros SZ rd rm CL DR RM. destruct (H SZ rd rm CL DR RM) as (st2 & E2). exists st2.
  rewrite C24_any_machine in E2 by reflexivity. split; [rewrite C24_any_machine by reflexivity; exact E2|].
  split; [exact W|]. split; [exact B|]. exists a, st1, F, rd, rm. rewrite (C24_any_machine _ _ (gdxOpenReadEx name rm)) by reflexivity. auto 12.
Qed.

(** Everything the file says about symbols, labels, texts, acronyms and domains is what
    the writing object said before it was closed. *)
Theorem C24_metadata : forall z w r name prod compr cs rs st st2 c, opened_elsewhere z w r name prod compr cs rs st st2 -> metadata c -> may_write c = false ->
  forall a, answers (machine z w) st c a <-> answers (machine z r) st2 c a.
Proof.
  intros z w r name prod compr cs rs st st2 c H M O a. apply C24_opening in H.
  rewrite (C20_metadata_is_found_again _ _ _ _ _ _ _ _ c H M a). apply answers_elsewhere. exact O.
Qed.

(** The records that were written on the machine [w] are read on the machine [r]. *)
Theorem C24_records : forall z w r st2 n dim typ wt recs rcs rrs st3 a s1, wrote (machine z w) st2 n dim typ wt recs -> some_record dim recs ->
  then_calls (machine z r) rcs rrs st2 st3 -> only_reads rcs -> no_acronyms wt recs \/ no_numbering (machine z r) st3 ->
  exec (machine z r) (gdxDataReadRawStart n) st3 = Done (a, s1) -> r_code a = 1 ->
  exists f, translates wt (reader_values rcs rrs standard_values) f /\ reads_all (machine z r) st3 n (as_read f None recs).
Proof.
  intros z w r st2 n dim typ wt recs rcs rrs st3 a s1 W SR TC O NA E C.
  assert (NA' : no_acronyms wt recs \/ no_numbering (machine z w) st3).
  { destruct NA as [NA|(k & K & A)]; [left; exact NA|right; exists k; split; [exact K|]]. revert A. apply answers_elsewhere. reflexivity. }
  destruct (round_trip (machine z w) st2 n dim typ wt recs rcs rrs st3 a s1 W SR (then_elsewhere _ _ _ _ _ _ _ O TC) NA') as (f & T & R);
    [rewrite C24_any_machine in * by reflexivity; exact E|exact C|].
  exists f. split; [exact T|]. eapply reads_elsewhere. exact R.
Qed.

(** ** The hypotheses are met *)
Definition fz : zlib := machine rle_zlib foreign.
Definition fq_pre : list call := [gdxUELRegisterRawStart; gdxUELRegisterRaw (s2z "a"); gdxUELRegisterRaw (s2z "B"); gdxUELRegisterRaw (s2z "c"); gdxUELRegisterDone].
Definition fq_start : call := gdxDataWriteRawStart (s2z "p") (s2z "a parameter") 1 dt_par 0.
Definition fq_body : list call := [gdxDataWriteRaw [1] [dbl_1]; gdxDataWriteRaw [3] [dbl_2_5]].
Definition fq_seg : list call := fq_start :: fq_body ++ [gdxDataWriteDone].
Definition fq_records : list (list Z * list Z) := [([1], [dbl_1]); ([3], [dbl_2_5])].
Definition fq_0 : gst := state_of (exec fz (gdxOpenWriteEx (s2z "v.gdx") (s2z "test") 1) (new_object [])).
Definition fq_sp : gst := state_of (run fz fq_pre fq_0).
Definition fq_sq : gst := state_of (run fz fq_seg fq_sp).
Definition fq_closed : gst := state_of (exec fz gdxClose fq_sq).
Definition fq_read : gst := state_of (exec rle_zlib (gdxOpenReadEx (s2z "v.gdx") 0) fq_closed).
Definition fq_rseg : list resp := answer_of (run fz fq_seg fq_sp).
Definition fq_rpre : list resp := answer_of (run fz fq_pre fq_0).
Definition fq_file : list Z := match disk_get (e_disk (g_env fq_closed)) (s2z "v.gdx") with Some F => F | None => [] end.
Lemma fq_open : exec fz (gdxOpenReadEx (s2z "v.gdx") 0) fq_closed = Done (ret_i 1 [0], fq_read).
Proof. vm_compute. reflexivity. Qed.
Lemma fq_parts : in_parts fz (s2z "v.gdx") (s2z "test") 1 fq_pre fq_sp fq_seg fq_rseg fq_sq [] fq_sq fq_read.
Proof.
  exists fq_rpre, []. split.
  { apply writes_made. exists (new_object []), fq_0, (ret_i 1 [0]). split; [vm_compute; reflexivity|]. split; [reflexivity|]. split; [apply str_okb_ok; vm_compute; reflexivity|].
    split; [apply calls_okb_ok; vm_compute; reflexivity|]. vm_compute. reflexivity. }
  split; [vm_compute; reflexivity|]. split; [vm_compute; reflexivity|]. split.
  { apply writes_made. exists (new_object []), fq_0, (ret_i 1 [0]). split; [vm_compute; reflexivity|]. split; [reflexivity|]. split; [apply str_okb_ok; vm_compute; reflexivity|].
    split; [apply calls_okb_ok; vm_compute; reflexivity|]. vm_compute. reflexivity. }
  split; [vm_compute; reflexivity|]. exists (ret 0), fq_closed, fq_file, fq_closed, 0.
  split; [vm_compute; reflexivity|]. split; [vm_compute; reflexivity|]. split; [apply counters_fit_test; vm_compute; reflexivity|].
  split; [vm_compute; reflexivity|]. split; [split; vm_compute; reflexivity|]. split; [vm_compute; reflexivity|]. split; [reflexivity|].
  exact fq_open.
Qed.
Lemma fq_wrote : wrote (machine rle_zlib foreign) fq_read 1 1 dt_par standard_values fq_records.
Proof.
  apply wrote_now. left.
  exists (s2z "v.gdx"), (s2z "test"), 1, fq_pre, fq_sp, fq_start, (s2z "p"), (s2z "a parameter"), 0, [(0, INT_MAX)], fq_body, (ret 1),
    [ret 1; ret 1], (ret 1), fq_sq, [], fq_sq.
  split; [exact fq_parts|]. split; [exact (RS_plain (s2z "p") (s2z "a parameter") 1 dt_par 0)|]. split; [reflexivity|]. split; [reflexivity|].
  split; [repeat constructor|]. split; [exists 3; ans|]. split; [ans|]. split; [reflexivity|]. split; [reflexivity|]. repeat constructor.
Qed.
(** Written on a big-endian machine, compressed, read on a little-endian one. *)
Definition fq_r1 : gst := state_of (exec rle_zlib (gdxDataReadRawStart 1) fq_read).
Lemma fq_start_ok : exec (machine rle_zlib native) (gdxDataReadRawStart 1) fq_read = Done (ret_i 1 [2], fq_r1).
Proof. vm_compute. reflexivity. Qed.
Example C24_case : exists f, translates standard_values standard_values f /\ reads_all (machine rle_zlib native) fq_read 1 (as_read f None fq_records).
Proof.
  refine (C24_records rle_zlib foreign native fq_read 1 1 dt_par standard_values fq_records [] [] fq_read (ret_i 1 [2]) fq_r1 fq_wrote _ _ _ _ fq_start_ok _).
  - left. discriminate.
  - split; [constructor|reflexivity].
  - constructor.
  - left. repeat constructor.
  - reflexivity.
Qed.
Example C24_case_metadata : answers rle_zlib fq_read (gdxSymbolInfo 1) (ret_is 1 [1; dt_par] [s2z "p"]).
Proof. ans. Qed.
Example C24_case_file : firstn 17 fq_file = [2; 0x12; 0x34; 4; 0x12; 0x34; 0x56; 0x78; 8; 0x40; 0x09; 0x21; 0xFB; 0x54; 0x44; 0x2D; 0x18].
Proof. vm_compute. reflexivity. Qed.

(** ** Appending elsewhere *)

(** gdxOpenAppend accepts a file of a machine with the other byte order; what is then
    written is in the order of the machine that appends (gmsstrm.hpp 125-130), the
    patterns at the start of the file stay.  All calls succeed, and the file can no
    longer be opened. *)
Definition fa_open : gst := state_of (exec rle_zlib (gdxOpenAppend (s2z "v.gdx")) fq_closed).
Definition fa_calls : list call := [gdxDataWriteRawStart (s2z "q") [] 1 dt_par 0; gdxDataWriteRaw [2] [dbl_1]; gdxDataWriteDone].
Definition fa_st : gst := state_of (run rle_zlib fa_calls fa_open).
Definition fa_closed : gst := state_of (exec rle_zlib gdxClose fa_st).
Theorem C24_append_refuted : exists z w r name prod compr cs rs st ob sta cs2 st3 st4,
  writes (machine z w) name prod compr cs rs st /\ (exists a, exec (machine z w) gdxClose st = Done (a, ob)) /\
  exec (machine z r) (gdxOpenAppend name) ob = Done (ret_i 1 [0], sta) /\
  run (machine z r) cs2 sta = Done (List.map (fun _ => ret 1) cs2, st3) /\
  exec (machine z r) gdxClose st3 = Done (ret 0, st4) /\
  exists e, e <> 0 /\ forall h, answers (machine z h) st4 (gdxOpenReadEx name 0) (ret_i 0 [e]).
Proof.
  exists rle_zlib, foreign, native, (s2z "v.gdx"), (s2z "test"), 1, (fq_pre ++ fq_seg), (fq_rpre ++ fq_rseg), fq_sq, fq_closed, fa_open, fa_calls, fa_st, fa_closed.
  split.
  { apply writes_made. exists (new_object []), fq_0, (ret_i 1 [0]). split; [vm_compute; reflexivity|]. split; [reflexivity|]. split; [apply str_okb_ok; vm_compute; reflexivity|].
    split; [apply calls_okb_ok; vm_compute; reflexivity|]. vm_compute. reflexivity. }
  split; [exists (ret 0); vm_compute; reflexivity|]. split; [vm_compute; reflexivity|]. split; [vm_compute; reflexivity|]. split; [vm_compute; reflexivity|].
  exists (-100031). split; [discriminate|]. intros h. exists (state_of (exec rle_zlib (gdxOpenReadEx (s2z "v.gdx") 0) fa_closed)).
  rewrite C24_any_machine by reflexivity. vm_compute. reflexivity.
Qed.

Print Assumptions C24_between_machines.
Print Assumptions C24_model_of_reading.
Print Assumptions C24_any_machine.
Print Assumptions C24_any_machine_calls.
Print Assumptions C24_closing.
Print Assumptions C24_opening.
Print Assumptions C24_opens.
Print Assumptions C24_metadata.
Print Assumptions C24_records.
Print Assumptions C24_append_refuted.
