(** * Reopen: writing a file, closing it, and opening it again

    What is on the disk after a write session has been closed, and the object that opens
    it. *)

From Coq Require Import String.
From Verif Require Import Base Prim Values Records LinkedData StrHash IntMap Strings AStream BufStream State
  FileImage ApiCore ApiFile ApiWrite ApiRead Api FileFacts BlockFacts StreamFacts OpenFacts DicInv WriteInv Journal WriteCalls WriteTrace
  Footprint SessInv FileFlow Sessions Vocab.
Open Scope Z_scope.
Open Scope list_scope.

Lemma disk_get_put : forall d name c, disk_get (disk_put d name c) name = Some c.
Proof.
  induction d as [|[n c0] d IH]; intros name c; cbn [disk_put disk_get].
  - rewrite (proj2 (str_eqb_spec name name) eq_refl). reflexivity.
  - destruct (str_eqb n name) eqn:E; cbn [disk_get]; rewrite E; [reflexivity|apply IH].
Qed.
Lemma disk_get_put_neq : forall d name c n, n <> name -> disk_get (disk_put d name c) n = disk_get d n.
Proof.
  induction d as [|[n0 c0] d IH]; intros name c n N; cbn [disk_put disk_get].
  - destruct (str_eqb name n) eqn:E; [apply str_eqb_spec in E; congruence|reflexivity].
  - destruct (str_eqb n0 name) eqn:E; cbn [disk_get]; [|rewrite IH by exact N; reflexivity].
    destruct (str_eqb n0 n) eqn:E2; [|reflexivity]. apply str_eqb_spec in E, E2. congruence.
Qed.

Lemma Forall2_weaken : forall {A B} (P Q : A -> B -> Prop) l m, (forall a b, P a b -> Q a b) -> Forall2 P l m -> Forall2 Q l m.
Proof. intros A B P Q l m H F. induction F; constructor; auto. Qed.

Section Z.
Context (z : zlib).

(** Complete file contents: the index and all tables, and the data blocks of the symbols
    for which [R] lists the records. *)
Record complete (F : list Z) (h : fhead) (m : major) (d : dic) (R : list (option (list srec))) : Prop := mkComplete {
  cp_head : head_ok h;
  cp_major : major_ok m;
  cp_wf : wf_contents (contents_of d);
  cp_image : image z (z_host z) F h m (contents_of d);
  cp_blocks : Forall2 (fun e o => match o with Some recs => block_at z (z_host z) F (snd e) recs | None => True end) (d_names d) R;
  cp_dinv : exists np, dinv np d;
  cp_room : exists base tail, F = base ++ tail /\ mj_nwp m = zlen base /\ (exists rest, base = enc_head (z_host z) h ++ rest /\ 80 <= zlen rest) /\
              Forall2 (fun e => blk z (zlen (enc_head (z_host z) h) + 80) base (fst e, stored (snd e))) (d_names d) R /\ dinv (zlen base) d /\ mj_symb m = zlen base
}.

Lemma close_init : forall h base G st r st1, winv z h base G st -> g_mode st = fw_init -> close z st = Done (r, st1) ->
  exists F m, e_disk (g_env st1) = disk_put (e_disk (g_env st)) (f_name (g_fil st)) F /\ g_mode st1 = f_not_open /\
    d_maptext (g_dic st1) = None /\ r = ret 0 /\ f_strm (g_fil st1) = None /\
    (counters_fit (g_dic st) -> zlen F < 2^63 -> complete F h m (g_dic st) (gR G)).
Proof.
  intros h base G st r st1 [CO PH] MO H.
  assert (I : exists s, f_strm (g_fil st) = Some s /\ on_base z base s).
  { unfold phase in PH. destruct (gC G) as [|n o|n items].
    - apply PH.
    - destruct PH as [[M _] _]. rewrite MO in M. cbn in M. intuition discriminate.
    - destruct PH as [[M _ _ _ _ _ _] _]. rewrite MO in M. cbn in M. intuition discriminate. }
  destruct I as (s & FS & OB). unfold close in H. rewrite MO in H.
  change (mode_in fw_init [fw_raw_data; fw_map_data; fw_str_data]) with false in H. cbv iota in H. cbn [obind] in H.
  rewrite MO in H. change (mode_in fw_init [fw_init]) with true in H. cbv iota in H.
  destruct (finalize z st) as [st2|] eqn:FI; [|discriminate]. cbn [obind] in H.
  destruct (finalize_ok z _ _ _ _ _ _ CO FS OB FI) as (s' & ops & m & base2 & tail & -> & AF & IX & IM & (MN & MS) & DF & MK).
  injection H as <- <-. exists (as_final z s'), m. split; [reflexivity|]. split; [reflexivity|]. split; [reflexivity|].
  split; [reflexivity|]. split; [reflexivity|]. intros CF SZ. rewrite AF in *.
  destruct IX as (IX1 & IX2 & IX3).
  assert (NP : zlen base < 2^63). { unfold zlen in *. rewrite app_length in SZ. lia. }
  constructor.
  - apply CO.
  - apply MK. exact SZ.
  - eapply wf_contents_of; [apply CO|exact NP|exact DF|exact CF].
  - exact IM.
  - pose proof (co_blk _ _ _ _ _ CO) as B. eapply Forall2_weaken; [|exact B].
    intros [nm sy] [recs|]; cbn; [|auto]. intros [(dsize & mms & n & bs & last & B1 & B2 & B3 & B4 & B5 & B6 & B7) [LO _]].
    exists dsize, mms, n, bs, last. repeat (split; [assumption|]). apply phys_at_app. apply IX3; [exact B7|exact LO].
  - exists (zlen base). apply CO.
  - exists base2, tail. split; [reflexivity|]. split; [rewrite MN; symmetry; exact IX1|]. split; [|split].
    + destruct (co_head _ _ _ _ _ CO) as (rest0 & BE & RL). destruct IX2 as (rest & E). exists (enc_major (z_host z) m ++ rest). split; [exact E|].
      rewrite E, BE, !zlen_app in IX1. rewrite zlen_app. lia.
    + eapply Forall2_weaken; [|exact (co_blk _ _ _ _ _ CO)]. intros [nm sy] [recs|]; cbn; [|auto].
      intros ((dsize & mms & n & bs & last & B1 & B2 & B3 & B4 & B5 & B6 & B7) & LO & BI). split; [|split; [exact LO|intros x Q; discriminate Q]].
      exists dsize, mms, n, bs, last. repeat (split; [assumption|]). apply IX3; [exact B7|exact LO].
    + split; [rewrite IX1; apply CO|rewrite MS; symmetry; exact IX1].
Qed.

(** The write session on a new file: the file [name] is created, the calls [cs] are made
    with the answers [rs]. *)
Definition writes_new (name prod : str) (compr : Z) (cs : list call) (rs : list resp) (st : gst) : Prop :=
  exists st0 sta ra, exec z (gdxOpenWriteEx name prod compr) st0 = Done (ra, sta) /\ r_code ra = 1 /\ str_ok prod /\
    Forall (fun c => keeps_writing c = true /\ call_ok c) cs /\ run z cs sta = Done (rs, st).

(** An object without an open file, fit to open one. *)
Definition closed (st : gst) : Prop := g_mode st = f_not_open /\ d_maptext (g_dic st) = None.

(** The object [st], between two symbols, is closed, and the file [name] it was writing has
    the content [F].  The file has fewer than 2^63 bytes, and no table and no symbol has
    more than 2^31 - 1 entries. *)
Definition closed_file (st : gst) (name : str) (F : list Z) : Prop :=
  g_mode st = fw_init /\ exists r st1, exec z gdxClose st = Done (r, st1) /\ disk_get (e_disk (g_env st1)) name = Some F /\
    counters_fit (g_dic st) /\ zlen F < 2^63.

(** The object [ob] opens the file with the content [F], under the name [name], to append
    to it. *)
Definition appending (F : list Z) (name : str) (sta : gst) : Prop :=
  exists ob, closed ob /\ name <> [] /\ disk_get (e_disk (g_env ob)) name = Some F /\
    exec z (gdxOpenAppend name) ob = Done (ret_i 1 [0], sta).

(** A write session: on a new file, or adding to a file that such a session has left.
    [cs] and [rs] are the calls of the last session. *)
Inductive writes : str -> str -> Z -> list call -> list resp -> gst -> Prop :=
| writes_made : forall name prod compr cs rs st, writes_new name prod compr cs rs st -> writes name prod compr cs rs st
| writes_added : forall name0 prod compr cs0 rs0 st0 F name sta cs rs st, writes name0 prod compr cs0 rs0 st0 ->
    closed_file st0 name0 F -> appending F name sta ->
    Forall (fun c => keeps_writing c = true /\ call_ok c) cs -> run z cs sta = Done (rs, st) ->
    writes name prod compr cs rs st.

(** The object after gdxOpenAppend succeeded on a file that was written by such sessions. *)
Definition appended (sta : gst) : Prop :=
  exists name0 prod compr cs0 rs0 st0 F name, writes name0 prod compr cs0 rs0 st0 /\ closed_file st0 name0 F /\ appending F name sta.
(** The object after gdxOpenWriteEx, or gdxOpenAppend, succeeded and the calls [cs] were
    made. *)
Definition in_writing (cs : list call) (st : gst) : Prop := exists sta, (created z sta \/ appended sta) /\ during z cs sta st.

Lemma new_writing : forall cs st, in_new_writing z cs st -> in_writing cs st.
Proof. intros cs st (st0 & C & D). exists st0. auto. Qed.

Lemma keeps_session : forall c, keeps_writing c = true -> session_call c = true.
Proof. intros []; cbn; congruence. Qed.
Lemma keeps_all : forall cs, Forall (fun c => keeps_writing c = true /\ call_ok c) cs -> forallb session_call cs = true /\ Forall call_ok cs.
Proof.
  intros cs F. split.
  - apply forallb_forall. rewrite Forall_forall in F. intros c I. apply keeps_session. apply (F c I).
  - eapply Forall_impl; [|exact F]. intros c [_ H]. exact H.
Qed.

Lemma writes_in_new_writing : forall name prod compr cs rs st, writes_new name prod compr cs rs st -> in_new_writing z cs st.
Proof.
  intros name prod compr cs rs st (st0 & sta & ra & O & RC & PO & F & R). exists sta. split; [exists st0, name, prod, compr, ra; auto|].
  destruct (keeps_all _ F) as [F1 F2]. split; [exact F1|]. split; [exact F2|]. exists rs. exact R.
Qed.

Lemma during_name : forall cs a b, during z cs a b -> f_name (g_fil b) = f_name (g_fil a).
Proof.
  intros cs a b D. eapply (during_state z (fun st => f_name (g_fil st) = f_name (g_fil a))); [|intros ? X; exact X|exact D|reflexivity].
  intros c x y _ Q A. destruct A; try exact Q. unfold set_error. destruct (n =? 0); exact Q.
Qed.

Lemma keeps_during : forall cs rs a b, Forall (fun c => keeps_writing c = true /\ call_ok c) cs -> run z cs a = Done (rs, b) -> during z cs a b.
Proof. intros cs rs a b F R. destruct (keeps_all _ F) as [F1 F2]. split; [exact F1|]. split; [exact F2|]. exists rs. exact R. Qed.

Lemma writes_new_jinv : forall name prod compr cs rs st, writes_new name prod compr cs rs st ->
  jinv z (new_head prod compr) (new_base z prod compr) (jrun cs rs new_journal) st /\ f_name (g_fil st) = name /\ name <> [].
Proof.
  intros name prod compr cs rs st (st0 & sta & ra & O & RC & PO & F & R). cbn [exec] in O.
  destruct (open_write_ok z _ _ _ _ _ _ PO O RC) as (W & J & M & NE & NM & _).
  split; [|split].
  - eapply jinv_run; [|exact F|exact R]. left. exists [], (mkG [] GIdle). rewrite app_nil_r. auto.
  - rewrite <- NM. eapply during_name. eapply keeps_during; eassumption.
  - exact NE.
Qed.

Lemma reopen_ok : forall F h m d R name rm st, complete F h m d R -> closed st -> name <> [] ->
  disk_get (e_disk (g_env st)) name = Some F -> Z.rem rm 2 = 0 ->
  exists s ops, rd_ok F s /\ exec z (gdxOpenReadEx name rm) st = Done (ret_i 1 [0], ws s ops (opened name F (z_host z) h m (contents_of d) st)).
Proof.
  intros F h m d R name rm st CP (MO & MT) NE DG RM. destruct CP. cbn [exec]. eapply open_read_ok; eassumption.
Qed.

(** ** Appending *)

Lemma znth_nil : forall {A} i, @znth A [] i = None.
Proof. intros A i. unfold znth. destruct (i <? 0); [reflexivity|]. destruct (Z.to_nat i); reflexivity. Qed.
Lemma im_get_new : forall n, im_get im_new n = -1.
Proof. intros n. unfold im_get, im_new. cbn [im_cells]. rewrite znth_nil. reflexivity. Qed.

Lemma loaded_dinv : forall np d, wf_contents (contents_of d) -> dinv np d -> dinv np (loaded (contents_of d)).
Proof.
  intros np d WF [DN DU DT DA DD US NN UN DN']. destruct WF.
  assert (SC : sym_count (loaded (contents_of d)) = sym_count d) by (unfold sym_count; cbn; rewrite zlen_map; reflexivity).
  assert (DC : zlen (d_dstrs (loaded (contents_of d))) = zlen (d_dstrs d)) by (cbn; rewrite !zlen_map; reflexivity).
  constructor; try reflexivity.
  - rewrite SC, DC. cbn. rewrite Forall_map. eapply Forall_impl; [|exact DN]. intros e [A []]. split; [exact A|].
    constructor; cbn; auto.
  - cbn. rewrite !Forall_map. exact DU.
  - eexists. split; [reflexivity|]. rewrite Forall_map, map_map. cbn [fst]. rewrite map_id. split; assumption.
  - cbn. rewrite Forall_map. eapply Forall_impl; [|exact DA]. intros a (A & B & C). split; [apply acro_saved_ok; exact A|].
    split; [exact B|exact C].
  - cbn. rewrite !Forall_map. exact DD.
  - split; [apply im_new_inv|]. intros k. left. apply im_get_new.
Qed.

Lemma append_ok : forall F h m d R name st, complete F h m d R -> closed st -> name <> [] ->
  disk_get (e_disk (g_env st)) name = Some F ->
  exists sta base, exec z (gdxOpenAppend name) st = Done (ret_i 1 [0], sta) /\ winv z h base (mkG R GIdle) sta /\
    g_dic sta = loaded (contents_of d) /\ g_mode sta = fw_init /\ e_tab (g_env sta) = default_tab /\ e_rtab (g_env sta) = default_tab /\
    f_name (g_fil sta) = name /\ r_tot (g_err sta) = 0 /\ e_disk (g_env sta) = e_disk (g_env st).
Proof.
  intros F h m d R name st CP CL NE DG. destruct (reopen_ok F h m d R name 0 st CP CL NE DG eq_refl) as (s & ops & RD & E).
  destruct CP as [HO MO WF IM BL DI (base & tail & FE & MN & HD & BK & DB & _)]. cbn [exec] in *. unfold open_append. rewrite E. cbn [obind].
  change (r_code (ret_i 1 [0]) =? 1) with true. cbn [negb]. cbv iota.
  set (X := opened name F (z_host z) h m (contents_of d) st) in *.
  change (f_ver (g_fil (ws s ops X)) <? 7) with false. cbv iota zeta.
  change (upd_fil (set_f_stat 2) (set_g_mode fw_init (ws s ops X))) with (ws s ops (upd_fil (set_f_stat 2) (set_g_mode fw_init X))).
  change (f_nwp (g_fil (ws s ops (upd_fil (set_f_stat 2) (set_g_mode fw_init X))))) with (mj_nwp m). rewrite MN.
  rewrite s_setpos_ws by (unfold zlen; lia). cbn [obind]. eexists. exists base. split; [reflexivity|].
  assert (OB : on_base z base (as_setpos z (zlen base) s)).
  { destruct RD as [RF RM]. exists tail. unfold as_setpos, as_final, as_flush. destruct (as_mode s); [|destruct RM|..]; cbn; congruence. }
  split; [|repeat (split; [reflexivity|]); reflexivity].
  split.
  - constructor; cbn [gR].
    + exact MN.
    + exact HD.
    + reflexivity.
    + exact HO.
    + reflexivity.
    + repeat split.
    + change (g_dic _) with (loaded (contents_of d)). eapply loaded_dinv; assumption.
    + change (d_names (g_dic _)) with (List.map (fun e : str * sym => (fst e, stored (snd e))) (d_names d)).
      clear - BK. induction BK as [|[nm sy] [recs|] l l' B BK IH]; cbn; constructor; auto.
    + reflexivity.
    + cbn. lia.
  - cbn. split; [left; reflexivity|]. eexists. split; [reflexivity|exact OB].
Qed.

Lemma close_writes : forall h base J st r st1, jinv z h base J st -> g_mode st = fw_init -> exec z gdxClose st = Done (r, st1) ->
  exists F m G, e_disk (g_env st1) = disk_put (e_disk (g_env st)) (f_name (g_fil st)) F /\ g_mode st1 = f_not_open /\
    d_maptext (g_dic st1) = None /\ r = ret 0 /\ f_strm (g_fil st1) = None /\ jrel J G st /\
    (counters_fit (g_dic st) -> zlen F < 2^63 -> complete F h m (g_dic st) (gR G)).
Proof.
  intros h base J st r st1 [(t & G & WI & JR)|(_ & D)] MO H.
  - cbn [exec] in H. destruct (close_init _ _ _ _ _ _ WI MO H) as (F & m & H1 & H2 & H3 & H4 & H5 & H6). exists F, m, G. auto 10.
  - exfalso. destruct D as [D _]. rewrite MO in D. unfold data_modes in D. cbn in D. intuition discriminate.
Qed.

(** The journal with which a session begins: [R] are the records already in the file. *)
Definition first_journal (R : list (option (list srec))) : journal := mkJ default_tab R JIdle.

Lemma jinv_any : forall h base J st, jinv z h base J st -> jinv z h [] J st.
Proof. intros h base J st [(t & G & W & JR)|D]; [left; exists (base ++ t), G; auto|right; exact D]. Qed.

Lemma writes_jinv0 : forall name prod compr cs rs st, writes name prod compr cs rs st ->
  (exists R, jinv z (new_head prod compr) [] (jrun cs rs (first_journal R)) st) /\ f_name (g_fil st) = name /\ name <> [].
Proof.
  intros name prod compr cs rs st W. induction W as [name prod compr cs rs st W|name0 prod compr cs0 rs0 st0 F name sta cs rs st W IH CF AP FC R].
  - destruct (writes_new_jinv _ _ _ _ _ _ W) as (JI & NM & NE). split; [|auto]. exists []. eapply jinv_any. exact JI.
  - destruct IH as ((R0 & JI) & NM & NE). destruct CF as (MO & r & st1 & E & DG & CT & SZ).
    destruct (close_writes _ _ _ _ _ _ JI MO E) as (F' & m & G & H1 & _ & _ & _ & _ & JR & C).
    rewrite H1, NM in DG. rewrite disk_get_put in DG. injection DG as ->. specialize (C CT SZ).
    destruct AP as (ob & CL & NE' & DO & EA). destruct (append_ok _ _ _ _ _ _ _ C CL NE' DO) as (sta' & base & EA' & WI & _ & MA & TA & _ & NA & _).
    rewrite EA' in EA. injection EA as ->. split; [|split; [|exact NE']].
    + exists (gR G). eapply jinv_run; [|exact FC|exact R]. eapply jinv_any. left. exists [], (mkG (gR G) GIdle). rewrite app_nil_r. split; [exact WI|].
      constructor; cbn; [symmetry; exact TA| |auto]. clear. induction (gR G); constructor; auto. right; reflexivity.
    + rewrite <- NA. eapply during_name. eapply keeps_during; eassumption.
Qed.

Lemma writes_jinv : forall name prod compr cs rs st, writes name prod compr cs rs st ->
  (exists J, jinv z (new_head prod compr) [] J st) /\ f_name (g_fil st) = name /\ name <> [].
Proof. intros name prod compr cs rs st W. destruct (writes_jinv0 _ _ _ _ _ _ W) as ((R & JI) & H). split; [eauto|exact H]. Qed.

(** The calls of the last session. *)
Lemma writes_last : forall name prod compr cs rs st, writes name prod compr cs rs st ->
  exists sta, Forall (fun c => keeps_writing c = true /\ call_ok c) cs /\ run z cs sta = Done (rs, st) /\
    (forall cs' rs' st', Forall (fun c => keeps_writing c = true /\ call_ok c) cs' -> run z cs' sta = Done (rs', st') -> writes name prod compr cs' rs' st').
Proof.
  intros name prod compr cs rs st W. destruct W as [name prod compr cs rs st W|name0 prod compr cs0 rs0 st0 F name sta cs rs st W CF AP FC R].
  - destruct W as (st0 & sta & ra & O & RC & PO & FC & R). exists sta. split; [exact FC|]. split; [exact R|].
    intros. apply writes_made. exists st0, sta, ra. auto.
  - exists sta. split; [exact FC|]. split; [exact R|]. intros. eapply writes_added; eassumption.
Qed.

(** The dictionaries with which a session that adds to a file begins. *)
Lemma appending_facts : forall name0 prod compr cs0 rs0 st0 F name sta, writes name0 prod compr cs0 rs0 st0 -> closed_file st0 name0 F ->
  appending F name sta -> g_dic sta = loaded (contents_of (g_dic st0)) /\ g_mode sta = fw_init /\ e_tab (g_env sta) = default_tab /\
    e_rtab (g_env sta) = default_tab /\ r_tot (g_err sta) = 0 /\ (exists np, dinv np (g_dic st0)).
Proof.
  intros name0 prod compr cs0 rs0 st0 F name sta W (MO & r & st1 & E & DG & CT & SZ) AP.
  destruct (writes_jinv0 _ _ _ _ _ _ W) as ((R0 & JI) & NM & NE).
  destruct (close_writes _ _ _ _ _ _ JI MO E) as (F' & m & G & H1 & _ & _ & _ & _ & JR & C).
  rewrite H1, NM in DG. rewrite disk_get_put in DG. injection DG as ->. specialize (C CT SZ).
  destruct AP as (ob & CL & NE' & DO & EA). destruct (append_ok _ _ _ _ _ _ _ C CL NE' DO) as (sta' & base & EA' & WI & D & MA & TA & TR & NA & RT & _).
  rewrite EA' in EA. injection EA as ->. repeat (split; [assumption|]). apply C.
Qed.

(** How the last session begins. *)
Lemma writes_start : forall name prod compr cs rs st, writes name prod compr cs rs st ->
  exists sta, Forall (fun c => keeps_writing c = true /\ call_ok c) cs /\ run z cs sta = Done (rs, st) /\ during z cs sta st /\
    g_mode sta = fw_init /\ e_tab (g_env sta) = default_tab /\ e_rtab (g_env sta) = default_tab.
Proof.
  intros name prod compr cs rs st W. destruct W as [name prod compr cs rs st W|name0 prod compr cs0 rs0 st0 F name sta cs rs st W CF AP FC R].
  - destruct W as (st0 & sta & ra & O & RC & PO & FC & R).
    destruct (created_facts z sta) as (M & _ & _ & T1 & T2 & _); [exists st0, name, prod, compr, ra; auto|].
    exists sta. split; [exact FC|]. split; [exact R|]. split; [eapply keeps_during; eassumption|]. auto.
  - destruct (appending_facts _ _ _ _ _ _ _ _ _ W CF AP) as (_ & M & T1 & T2 & _).
    exists sta. split; [exact FC|]. split; [exact R|]. split; [eapply keeps_during; eassumption|]. auto.
Qed.

(** An invariant of the dictionaries of all write sessions. *)
Lemma writes_dic : forall (P : dic -> Prop),
  (forall st0 name prod compr ra sta, exec z (gdxOpenWriteEx name prod compr) st0 = Done (ra, sta) -> r_code ra = 1 -> P (g_dic sta)) ->
  (forall np d, dinv np d -> P d -> P (loaded (contents_of d))) ->
  (forall cs a b, during z cs a b -> P (g_dic a) -> P (g_dic b)) ->
  forall name prod compr cs rs st, writes name prod compr cs rs st -> P (g_dic st).
Proof.
  intros P HN HL HD name prod compr cs rs st W. induction W as [name prod compr cs rs st W|name0 prod compr cs0 rs0 st0 F name sta cs rs st W IH CF AP FC R].
  - destruct W as (st0 & sta & ra & O & RC & _ & FC & R). eapply HD; [eapply keeps_during; eassumption|]. eapply HN; eassumption.
  - destruct (appending_facts _ _ _ _ _ _ _ _ _ W CF AP) as (D & _ & _ & _ & _ & np & DI).
    eapply HD; [eapply keeps_during; eassumption|]. rewrite D. eapply HL; eassumption.
Qed.

Lemma writing_dic : forall (P : dic -> Prop),
  (forall st, created z st -> P (g_dic st)) ->
  (forall np d, dinv np d -> P d -> P (loaded (contents_of d))) ->
  (forall c d d', datom c d d' -> P d -> P d') ->
  forall cs st, in_writing cs st -> P (g_dic st).
Proof.
  intros P HN HL HD cs st (sta & B & D). eapply (during_dic z P); [intros c d d' _; apply HD|exact D|].
  destruct B as [C|(name0 & prod & compr & cs0 & rs0 & st0 & F & name & W & CF & AP)]; [apply HN; exact C|].
  destruct (appending_facts _ _ _ _ _ _ _ _ _ W CF AP) as (E & _ & _ & _ & _ & np & DI). rewrite E. eapply HL; [exact DI|].
  revert W. apply (writes_dic P); [|exact HL|].
  - intros s0 n p c ra sa O RC. apply HN. exists s0, n, p, c, ra. auto.
  - intros cs' a b D'. eapply (during_dic z P); [intros c d d' _; apply HD|exact D'].
Qed.
Lemma writes_in_writing : forall name prod compr cs rs st, writes name prod compr cs rs st -> in_writing cs st.
Proof.
  intros name prod compr cs rs st W. destruct W as [name prod compr cs rs st W|name0 prod compr cs0 rs0 st0 F name sta cs rs st W CF AP FC R].
  - apply new_writing. eapply writes_in_new_writing. exact W.
  - exists sta. split; [right; exists name0, prod, compr, cs0, rs0, st0, F, name; auto|]. eapply keeps_during; eassumption.
Qed.

(** After the session is closed between two symbols. *)
Lemma saved_ok : forall name prod compr cs rs st r st1, writes name prod compr cs rs st -> g_mode st = fw_init ->
  exec z gdxClose st = Done (r, st1) ->
  r = ret 0 /\ closed st1 /\
  exists F m G R, disk_get (e_disk (g_env st1)) name = Some F /\ e_disk (g_env st1) = disk_put (e_disk (g_env st)) name F /\
    jrel (jrun cs rs (first_journal R)) G st /\
    (counters_fit (g_dic st) -> zlen F < 2^63 -> complete F (new_head prod compr) m (g_dic st) (gR G)).
Proof.
  intros name prod compr cs rs st r st1 W MO H. destruct (writes_jinv0 _ _ _ _ _ _ W) as ((R & JI) & NM & NE).
  destruct (close_writes _ _ _ _ _ _ JI MO H) as (F & m & G & H1 & H2 & H3 & H4 & H5 & H6 & H7). rewrite NM in H1.
  split; [exact H4|]. split; [split; assumption|]. exists F, m, G, R. split; [rewrite H1; apply disk_get_put|]. split; [exact H1|]. split; [exact H6|exact H7].
Qed.

End Z.

(** The session [writes] is between two symbols. *)
Definition between_symbols (st : gst) : Prop := g_mode st = fw_init.

(** The file [name] is written by the calls [cs], closed, and opened by the object [rd]
    (which may be the same or another one), which is then [st2].  [st]: the writing object
    just before it is closed.  The file has fewer than 2^63 bytes, and no table and no
    symbol has more than 2^31 - 1 entries. *)
Definition reopened (z : zlib) (name prod : str) (compr : Z) (cs : list call) (rs : list resp) (st st2 : gst) : Prop :=
  writes z name prod compr cs rs st /\ between_symbols st /\
  exists r st1 F rd rm, exec z gdxClose st = Done (r, st1) /\ disk_get (e_disk (g_env st1)) name = Some F /\
    counters_fit (g_dic st) /\ zlen F < 2^63 /\
    closed rd /\ disk_get (e_disk (g_env rd)) name = Some F /\ Z.rem rm 2 = 0 /\
    exec z (gdxOpenReadEx name rm) rd = Done (ret_i 1 [0], st2).
