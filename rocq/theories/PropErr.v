(** * Properties of errors, special-value tables and call order: C06, C27, C28 *)

From Coq Require Import String.
From Verif Require Import Base Prim Values Records LinkedData StrHash IntMap Strings AStream BufStream State
  FileImage ApiCore ApiFile ApiWrite ApiRead Api FileFacts StreamFacts OpenFacts DicInv Footprint SessInv FileFlow Sessions Vocab.
Open Scope Z_scope.
Open Scope list_scope.

(** ** C28: the last error *)

(** The error that gdxGetLastError would report if the operating system has none, and the
    number of errors. *)
Definition pending (z : zlib) (st : gst) (e : Z) : Prop := answers z st (gdxGetLastError 0) (ret e).
Definition errors (z : zlib) (st : gst) (n : Z) : Prop := answers z st gdxErrorCount (ret n).

Lemma pending_iff : forall z st e, pending z st e <-> r_last (g_err st) = e.
Proof.
  intros z st e. unfold pending, answers. cbn [exec]. unfold get_last_error. split.
  - intros (st' & H). destruct (f_strm (g_fil st)); cbn in H; injection H as <-; reflexivity.
  - intros <-. destruct (f_strm (g_fil st)); cbn; eauto.
Qed.
Lemma errors_iff : forall z st n, errors z st n <-> r_tot (g_err st) = n.
Proof.
  intros z st n. unfold errors, answers. cbn [exec]. unfold error_count. split.
  - intros (st' & H). injection H as <-. reflexivity.
  - intros <-. eauto.
Qed.

Definition not_opening (c : call) : bool :=
  match c with gdxOpenWriteEx _ _ _ | gdxOpenReadEx _ _ | gdxOpenAppend _ | gdxGetLastError _ => false | _ => true end.

(** Errors do not hide the first one: once an error is pending it stays, through every
    call but opening a file, until it is fetched. *)
Theorem C28_first_error_is_kept : forall z st e cs rs st',
  pending z st e -> e <> 0 -> forallb not_opening cs = true -> Forall call_ok cs -> run z cs st = Done (rs, st') ->
  pending z st' e.
Proof.
  intros z st e cs rs st' P NE F OK R. rewrite pending_iff in *. revert st rs st' P F OK R.
  assert (CL : forall c a b, r_last (g_err a) = e -> atom c a b -> r_last (g_err b) = e).
  { intros c a b Q A. destruct A; try exact Q. unfold set_error. destruct (n =? 0); [exact Q|]. cbn. destruct (Z.eqb_spec (r_last (g_err st)) 0); congruence. }
  assert (RL : forall s, r_last (g_err s) = e -> r_last (g_err (snd (release z s))) = e).
  { intros s Q. unfold release. destruct (f_strm (g_fil s)); exact Q. }
  induction cs as [|c cs IH]; intros st rs st' P F OK R; cbn [run] in R.
  - injection R as _ <-. exact P.
  - cbn [forallb] in F. apply andb_true_iff in F. destruct F as [C F]. inversion OK; subst.
    assert (X : ok (fun s => r_last (g_err s) = r_last (g_err st)) (exec z c st)).
    { destruct (plain c) eqn:PL.
      - eapply exec_ok; try eassumption; [intros a b; apply CL|reflexivity].
      - destruct c; try discriminate C; try discriminate PL; cbn [exec]; [eapply (close_keeps z gdxClose)|eapply (destroy_keeps z gdxFree)]; eauto. }
    destruct (exec z c st) as [[r s]|]; [|discriminate]. cbn [obind ok] in *.
    destruct (run z cs s) as [[rs' s']|] eqn:R2; [|discriminate]. injection R as _ <-. eapply IH; eassumption.
Qed.

(** Fetching: an error of the operating system takes precedence while a file is open, and
    leaves the pending error; otherwise the pending error is returned and cleared. *)
Theorem C28_fetch : forall z st e io, pending z st e ->
  (has_stream st /\ io <> 0 -> exec z (gdxGetLastError io) st = Done (ret io, st)) /\
  (io = 0 \/ ~ has_stream st -> exists st1, exec z (gdxGetLastError io) st = Done (ret e, st1) /\ pending z st1 0 /\
     forall n, errors z st1 n <-> errors z st n).
Proof.
  intros z st e io P. rewrite pending_iff in P. cbn [exec]. unfold get_last_error. split.
  - intros [[s ->] NE]. destruct (Z.eqb_spec io 0); [contradiction|reflexivity].
  - intros C. exists (upd_err (set_r_last 0) st). rewrite pending_iff. split; [|split; [reflexivity|intros n; rewrite !errors_iff; reflexivity]].
    rewrite P. destruct (f_strm (g_fil st)) as [s|] eqn:E; [|reflexivity].
    destruct C as [->|C]; [reflexivity|exfalso; apply C; exists s; exact E].
Qed.

(** One call: errors are counted, none is pending unless one was counted, and the first
    one counted becomes pending. *)
Theorem C28_errors_are_counted : forall z st c r st' e n, plain c = true -> call_ok c -> exec z c st = Done (r, st') ->
  pending z st e -> errors z st n ->
  exists e' n', pending z st' e' /\ errors z st' n' /\ n <= n' /\ (n' = n -> e' = e) /\ (n < n' -> e = 0 -> e' <> 0).
Proof.
  intros z st c r st' e n PL OK E P N. rewrite pending_iff in P. rewrite errors_iff in N.
  assert (X : ok (fun s => n <= r_tot (g_err s) /\ (r_tot (g_err s) = n -> r_last (g_err s) = e) /\
                           (n < r_tot (g_err s) -> e = 0 -> r_last (g_err s) <> 0)) (exec z c st)).
  { eapply (exec_ok c z); try eassumption.
    - intros a b Q A. destruct A; try exact Q. unfold set_error. destruct (Z.eqb_spec n0 0); [contradiction|]. cbn.
      destruct Q as (Q1 & Q2 & Q3). destruct (Z.eqb_spec (r_last (g_err st0)) 0); (split; [lia|]); (split; [lia|]); intros; [assumption|assumption].
    - repeat split; lia. }
  rewrite E in X. cbn [ok] in X. exists (r_last (g_err st')), (r_tot (g_err st')).
  rewrite pending_iff, errors_iff. tauto.
Qed.

(** The count never decreases while the file is open. *)
Theorem C28_count_never_decreases : forall z cs st st' n, during z cs st st' -> errors z st n ->
  exists n', errors z st' n' /\ n <= n'.
Proof.
  intros z cs st st' n D N. rewrite errors_iff in N. exists (r_tot (g_err st')). rewrite errors_iff. split; [reflexivity|].
  eapply (during_state z (fun s => n <= r_tot (g_err s))); [|intros ? X; exact X|exact D|lia].
  intros c a b _ Q A. destruct A; try exact Q. unfold set_error. destruct (n0 =? 0); [exact Q|]. cbn. lia.
Qed.

(** Opening starts afresh. *)
Theorem C28_opening_clears : forall z st, created z st \/ opened_to_read z st -> pending z st 0 /\ errors z st 0.
Proof.
  intros z st [C|C]; rewrite pending_iff, errors_iff.
  - apply created_facts in C. destruct C as (_ & _ & (C1 & _ & C3) & _). auto.
  - apply opened_read_facts in C. destruct C as (_ & _ & (C1 & _ & C3) & _). auto.
Qed.

(** Three refused calls: the first error is reported, then none. *)
Example C28_case :
  let st0 := new_object [] in
  match run rle_zlib [gdxOpenWriteEx (s2z "f") (s2z "p") 0; gdxDataWriteRawStart (s2z "1x") (s2z "t") 1 1 0; gdxDataWriteRaw [1] [0; 0; 0; 0; 0];
                      gdxDataWriteDone; gdxErrorCount; gdxGetLastError 0; gdxGetLastError 0; gdxErrorCount] st0 with
  | Done (rs, _) => List.map r_code rs = [1; 0; 0; 0; 3; ERR_BADIDENTFORMAT; 0; 3]
  | UB => False
  end.
Proof. vm_compute. reflexivity. Qed.

(** ** C06: the table of special values *)

Definition special_values (z : zlib) (st : gst) (l : list Z) : Prop := answers z st gdxGetSpecialValues (ret_iv 1 [] (l ++ [SV_ACR])).

Lemma has_dup_spec : forall l, has_dup l = false <-> NoDup l.
Proof.
  induction l as [|x l IH]; cbn [has_dup]; split; intros H.
  - constructor.
  - reflexivity.
  - apply orb_false_iff in H. destruct H as [H1 H2]. constructor; [|apply IH; exact H2]. intros I.
    assert (existsb (Z.eqb x) l = true) by (apply existsb_exists; exists x; split; [exact I|apply Z.eqb_refl]). congruence.
  - inversion H as [|y l' H1 H2]; subst. apply orb_false_iff. split; [|apply IH; exact H2].
    destruct (existsb (Z.eqb x) l) eqn:E; [|reflexivity]. apply existsb_exists in E. destruct E as (y & I & Q). apply Z.eqb_eq in Q. congruence.
Qed.
Lemma special_iff : forall z st l, special_values z st l <-> firstn 5 (e_tab (g_env st)) = l.
Proof.
  intros z st l. unfold special_values, answers. cbn [exec]. unfold get_special. split.
  - intros (st' & H). injection H as H _. apply app_inv_tail in H. exact H.
  - intros <-. eauto.
Qed.

Definition tab_ok (st : gst) : Prop := (5 <= length (e_tab (g_env st)))%nat /\ has_dup (firstn 5 (e_tab (g_env st))) = false.

Lemma tab_always : forall z disk cs rs st, Forall call_ok cs -> run z cs (new_object disk) = Done (rs, st) -> tab_ok st.
Proof.
  intros z disk cs rs st OK R. eapply (run_any z tab_ok); try eassumption.
  - intros; assumption.
  - intros; assumption.
  - intros; assumption.
  - intros; assumption.
  - intros; split; [cbn; lia|reflexivity].
  - intros s Q. unfold release. destruct (f_strm (g_fil s)); exact Q.
  - intros c a b Q A. destruct A; try exact Q.
    + destruct H as (_ & _ & [H|[H|(five & L & D & H)]]); unfold tab_ok in *; change (g_env (upd_env f st0)) with (f (g_env st0)); rewrite H.
      * exact Q.
      * split; [cbn; lia|reflexivity].
      * rewrite app_length, firstn_app, L, Nat.sub_diag, firstn_O, app_nil_r, firstn_all2 by lia. split; [lia|exact D].
    + unfold set_error. destruct (n =? 0); exact Q.
  - split; [cbn; lia|reflexivity].
Qed.

(** Whatever is done with an object, its five special values are different. *)
Theorem C06_special_values_differ : forall z disk cs rs st, Forall call_ok cs -> run z cs (new_object disk) = Done (rs, st) ->
  exists l, special_values z st l /\ length l = 5%nat /\ NoDup l.
Proof.
  intros z disk cs rs st OK R. destruct (tab_always _ _ _ _ _ OK R) as [L D]. eexists. rewrite special_iff. split; [reflexivity|].
  split; [rewrite firstn_length; lia|]. apply has_dup_spec. exact D.
Qed.

(** gdxSetSpecialValues: a table with a repetition is refused with an error and nothing
    changes; any other one becomes the current table. *)
Theorem C06_set_special_values : forall z st l vals r st', special_values z st l -> exec z (gdxSetSpecialValues vals) st = Done (r, st') ->
  (NoDup (firstn 5 vals) /\ r_code r = 1 /\ special_values z st' (firstn 5 vals)) \/
  (~ NoDup (firstn 5 vals) /\ r_code r = 0 /\ st' = set_error ERR_DUPLICATESPECVAL st /\ special_values z st' l).
Proof.
  intros z st l vals r st' S E. rewrite special_iff in S. cbn [exec] in E. unfold set_special in E.
  destruct (Nat.ltb_spec (length vals) 5) as [|L]; [discriminate|]. destruct (has_dup (firstn 5 vals)) eqn:D.
  - right. injection E as <- <-. split; [rewrite <- has_dup_spec; congruence|]. split; [reflexivity|]. split; [reflexivity|]. rewrite special_iff. exact S.
  - left. injection E as <- <-. split; [apply has_dup_spec; exact D|]. split; [reflexivity|]. rewrite special_iff.
    match goal with |- firstn 5 ?x = _ => change x with (firstn 5 vals ++ skipn 5 (e_tab (g_env st))) end. rewrite firstn_app, firstn_firstn, firstn_length. replace (5 - Nat.min 5 (length vals))%nat with 0%nat by lia. rewrite firstn_O, app_nil_r. reflexivity.
Qed.

(** The k-th of the current values, and no other value, is recognised as the k-th one. *)
Theorem C06_values_are_recognised : forall z disk cs rs st l x, Forall call_ok cs -> run z cs (new_object disk) = Done (rs, st) ->
  special_values z st l ->
  (forall k, nth_error l k = Some x -> answers z st (gdxMapValue x) (ret_i 1 [Z.of_nat k])) /\
  (~ In x l -> answers z st (gdxMapValue x) (ret_i 0 [5])).
Proof.
  intros z disk cs rs st l x OK R S. destruct (tab_always _ _ _ _ _ OK R) as [_ D]. rewrite special_iff in S. rewrite S in D. apply has_dup_spec in D.
  assert (IX : forall l n, NoDup l -> (forall k, nth_error l k = Some x -> index_of x l n = Some (n + Z.of_nat k)) /\ (~ In x l -> index_of x l n = None)).
  { clear. induction l as [|y l IH]; intros n D; split.
    - intros [|k]; discriminate.
    - reflexivity.
    - inversion D as [|y' l' D1 D2]; subst. intros k K. cbn [index_of]. destruct k as [|k].
      + injection K as ->. rewrite Z.eqb_refl. f_equal. lia.
      + destruct (Z.eqb_spec x y) as [->|NE]; [exfalso; apply D1; eapply nth_error_In; exact K|].
        rewrite (proj1 (IH (n + 1) D2) k K). f_equal. lia.
    - inversion D as [|y' l' D1 D2]; subst. intros NI. cbn [index_of]. destruct (Z.eqb_spec x y) as [->|NE]; [exfalso; apply NI; left; reflexivity|].
      apply IH; [exact D2|]. intros I. apply NI. right. exact I. }
  unfold answers. cbn [exec]. unfold map_value. rewrite S. destruct (IX l 0 D) as [I1 I2]. split.
  - intros k K. rewrite (I1 k K). eauto.
  - intros NI. rewrite (I2 NI). eauto.
Qed.

Example C06_case :
  match run rle_zlib [gdxSetSpecialValues [1; 2; 3; 4; 5]; gdxSetSpecialValues [6; 7; 8; 7; 9]; gdxGetSpecialValues; gdxMapValue 3; gdxMapValue 7] (new_object []) with
  | Done (rs, _) => List.map (fun r => (r_code r, r_ints r, r_vals r)) rs
                    = [(1, [], []); (0, [], []); (1, [], [1; 2; 3; 4; 5; SV_ACR]); (1, [2], []); (0, [5], [])]
  | UB => False
  end.
Proof. vm_compute. reflexivity. Qed.

(** ** C27: calls out of order *)

(** The phases in which a call may be made. *)
Definition phase : gst -> gmode := g_mode.
Definition required (c : call) : option (list gmode) :=
  match c with
  | gdxDataWriteRaw _ _ => Some [fw_dom_raw; fw_raw_data]
  | gdxDataWriteMap _ _ => Some [fw_dom_map; fw_map_data]
  | gdxDataWriteStr _ _ => Some [fw_dom_str; fw_str_data]
  | gdxDataWriteDone => Some [fw_dom_raw; fw_raw_data; fw_dom_map; fw_map_data; fw_dom_str; fw_str_data]
  | gdxSymbolSetDomain _ => Some [fw_dom_raw; fw_dom_map; fw_dom_str]
  | gdxAddAlias _ _ | gdxSymbolAddComment _ _ =>
      Some [fw_init; fw_dom_raw; fw_dom_map; fw_dom_str; fw_raw_data; fw_map_data; fw_str_data]
  | gdxUELRegisterRawStart => Some [fw_init]
  | gdxUELRegisterRaw _ => Some [f_raw_elem]
  | gdxUELRegisterStrStart | gdxUELRegisterMapStart => Some [fr_init; fw_init]
  | gdxUELRegisterStr _ => Some [f_str_elem]
  | gdxUELRegisterMap _ _ => Some [f_map_elem]
  | gdxUELRegisterDone => Some [f_raw_elem; f_str_elem; f_map_elem]
  | gdxDataReadRaw => Some [fr_raw_data]
  | gdxDataReadStr => Some [fr_str_data]
  | gdxDataReadMap _ => Some [fr_map_data; fr_mapr_data]
  | gdxDataReadSlice _ | gdxDataSliceUELS _ => Some [fr_slice]
  | gdxSymbIndxMaxLength _ => Some [fr_init]
  | gdxFilterRegisterStart _ => Some [fr_init]
  | gdxFilterRegister _ | gdxFilterRegisterDone => Some [fr_filter]
  | gdxFilterExists _ => Some AnyReadMode
  | gdxDataErrorRecord _ | gdxDataErrorRecordX _ =>
      Some [fr_init; fw_init; fr_map_data; fr_mapr_data; fw_raw_data; fw_map_data; fw_str_data]
  | _ => None
  end.

Lemma mode_in_In : forall m l, mode_in m l = true <-> In m l.
Proof. intros m l. unfold mode_in. destruct (in_dec mode_eq_dec m l); split; intros; try assumption; try reflexivity; [discriminate|contradiction]. Qed.

(** A call made in another phase answers 0 and sets the bad-mode error; otherwise the
    object is what it was.  (gdxUELRegisterMap trims its label first, which is undefined
    for labels of 256 or more characters.) *)
Theorem C27_calls_out_of_order : forall z st c modes, required c = Some modes -> ~ In (phase st) modes ->
  (forall n s, c = gdxUELRegisterMap n s -> zlen s <= 255) ->
  exists r, exec z c st = Done (r, set_error ERR_BADMODE st) /\ r_code r = 0.
Proof.
  intros z st c modes R NI LN. unfold phase in NI.
  assert (MI : forall l, (forall m, In m l -> In m modes) -> mode_in (g_mode st) l = false).
  { intros l L. destruct (mode_in (g_mode st) l) eqn:E; [|reflexivity]. apply mode_in_In in E. exfalso. apply NI, L, E. }
  assert (EN : forall a b, In a modes -> enter a b st = st).
  { intros a b I. unfold enter. rewrite MI; [reflexivity|]. intros m [<-|[]]. exact I. }
  destruct c; try discriminate R; injection R as <-; cbn [exec].
  all: unfold write_raw, write_map, write_str, data_write_done, symbol_set_domain, add_alias, symbol_add_comment, register_raw_start, register_raw,
    register_str_start, register_map_start, register_str, register_map, register_done, read_raw, read_str, read_map, read_slice, data_slice_uels,
    symb_indx_max_length, filter_register_start, filter_register, filter_register_done, filter_exists, data_error_record, data_error_record_x.
  all: cbv zeta; rewrite ?EN by (cbn; tauto); unfold checked.
  all: try (rewrite MI by (cbn; tauto); eexists; split; [reflexivity|reflexivity]).
  destruct (trim_store uel) as [t|] eqn:T; cbn [obind]; [rewrite MI by (cbn; tauto); eexists; split; [reflexivity|reflexivity]|].
  exfalso. specialize (LN _ _ eq_refl). unfold trim_store in T. pose proof (trim_right_length uel).
  destruct (Z.leb_spec (zlen (trim_right uel)) 255); [rewrite orb_true_r in T; discriminate|lia].
Qed.

(** A call that starts a symbol in another phase is refused, too; the phase, the symbols
    and labels, and the file stay. *)
Definition starts (c : call) : bool :=
  match c with
  | gdxDataWriteRawStart _ _ _ _ _ | gdxDataWriteRawStartKeyBounds _ _ _ _ _ _ _ | gdxDataWriteMapStart _ _ _ _ _ | gdxDataWriteStrStart _ _ _ _ _ => true
  | _ => false
  end.
Theorem C27_starting_out_of_order_partial : forall z st c, starts c = true -> phase st <> fw_init ->
  exists st', exec z c st = Done (ret 0, st') /\ phase st' = phase st /\ g_dic st' = g_dic st /\ g_fil st' = g_fil st /\ g_env st' = g_env st /\
    r_tot (g_err st') = r_tot (g_err st) + 1 /\ r_last (g_err st') = (if r_last (g_err st) =? 0 then ERR_BADMODE else r_last (g_err st)).
Proof.
  intros z st c S NE. unfold phase in *. assert (MI : mode_in (g_mode st) [fw_init] = false).
  { destruct (mode_in (g_mode st) [fw_init]) eqn:E; [|reflexivity]. apply mode_in_In in E. destruct E as [E|[]]. congruence. }
  destruct c; try discriminate S; cbn [exec]; unfold write_raw_start, write_raw_start_bounds, write_map_start, write_str_start, prepare_symbol_write;
    cbv zeta; change (g_mode (upd_wrk _ _)) with (g_mode st); rewrite MI; cbn [negb obind]; eexists; (split; [reflexivity|]); repeat split.
Qed.

(** What is missing: the records collected so far and the current symbol are forgotten, so
    that the next write of the symbol that was being written is undefined behaviour. *)
Theorem C27_starting_out_of_order_refuted : exists cs1 c cs2,
  (exists rs st, run rle_zlib (cs1 ++ cs2) (new_object []) = Done (rs, st)) /\ starts c = true /\
  (exists rs st st' , run rle_zlib cs1 (new_object []) = Done (rs, st) /\ exec rle_zlib c st = Done (ret 0, st')) /\
  run rle_zlib (cs1 ++ [c] ++ cs2) (new_object []) = UB.
Proof.
  exists [gdxOpenWriteEx (s2z "f") (s2z "p") 0; gdxDataWriteMapStart (s2z "a") (s2z "t") 0 1 0].
  exists (gdxDataWriteMapStart (s2z "b") (s2z "t") 0 1 0). exists [gdxDataWriteMap [] [0]].
  split; [eexists _, _; vm_compute; reflexivity|]. split; [reflexivity|]. split; [eexists _, _, _; split; [vm_compute; reflexivity|vm_compute; reflexivity]|].
  vm_compute. reflexivity.
Qed.

(** Starting to read while writing: refused, but the object is put into the reading phase
    and the file is never finished. *)
Definition finished (z : zlib) (cs : list call) (name : str) : Prop :=
  exists rs st r st', run z cs (new_object []) = Done (rs, st) /\ exec z (gdxOpenReadEx name 0) st = Done (r, st') /\ r_code r = 1.
Theorem C27_reading_while_writing_refuted :
  exists cs1 c cs2 name, finished rle_zlib (cs1 ++ cs2) name /\
    (exists rs st r st', run rle_zlib cs1 (new_object []) = Done (rs, st) /\ exec rle_zlib c st = Done (r, st') /\ r_code r = 0) /\
    ~ finished rle_zlib (cs1 ++ [c] ++ cs2) name.
Proof.
  exists [gdxOpenWriteEx (s2z "f") (s2z "p") 0]. exists (gdxDataReadRawStart 1). exists [gdxClose]. exists (s2z "f").
  split. { eexists _, _, _, _. split; [vm_compute; reflexivity|]. split; [vm_compute; reflexivity|reflexivity]. }
  split. { eexists _, _, _, _. split; [vm_compute; reflexivity|]. split; [vm_compute; reflexivity|reflexivity]. }
  intros (rs & st & r & st' & R & O & C). vm_compute in R. injection R as <- <-. vm_compute in O. injection O as <- <-. discriminate C.
Qed.

Print Assumptions C28_first_error_is_kept.
Print Assumptions C28_fetch.
Print Assumptions C28_errors_are_counted.
Print Assumptions C28_count_never_decreases.
Print Assumptions C28_opening_clears.
Print Assumptions C06_special_values_differ.
Print Assumptions C06_set_special_values.
Print Assumptions C06_values_are_recognised.
Print Assumptions C27_calls_out_of_order.
Print Assumptions C27_starting_out_of_order_partial.
Print Assumptions C27_starting_out_of_order_refuted.
Print Assumptions C27_reading_while_writing_refuted.
