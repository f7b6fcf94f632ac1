(** * OpenFacts: opening a complete file loads exactly what it contains *)

From Verif Require Import Base Prim Values Records LinkedData StrHash IntMap Strings AStream BufStream State StateTac
  FileImage ApiCore ApiFile FileFacts StreamFacts.

(** What the dictionaries of a file contain. *)
Record contents := mkC {
  c_syms : list (str * sym);
  c_uels : list str;
  c_texts : list str;
  c_acros : list acro;
  c_dstrs : list str
}.

Definition fits_int {A} (l : list A) : Prop := zlen l <= INT_MAX.

Record wf_contents (C : contents) : Prop := mkWF {
  wf_syms : Forall (fun e => text_ok (fst e) /\ sym_ok (snd e)) (c_syms C);
  wf_nsyms : fits_int (c_syms C);
  wf_uels : Forall text_ok (c_uels C);
  wf_nuels : fits_int (c_uels C);
  wf_texts : Forall text_ok (c_texts C);
  wf_ntexts : fits_int (c_texts C);
  wf_dtexts : NoDup (c_texts C);
  wf_acros : Forall acro_ok (c_acros C);
  wf_nacros : fits_int (c_acros C);
  wf_dstrs : Forall text_ok (c_dstrs C);
  wf_ndstrs : fits_int (c_dstrs C)
}.

(** The header of a file. *)
Record fhead := mkH { h_compr : Z; h_sysid : str; h_prod : str }.
Definition head_ok (h : fhead) : Prop :=
  int_ok (h_compr h) /\ text_ok (h_sysid h) /\ text_ok (h_prod h) /\ is_2001 (h_sysid h) = false.
Definition is_comp (h : fhead) : bool := 0 <? h_compr h.
Definition enc_head (bo : border) (h : fhead) : list Z :=
  preamble bo ++ enc_header bo (h_compr h) (h_sysid h) (h_prod h).

Definition major_ok (m : major) : Prop :=
  i64_ok (mj_symb m) /\ i64_ok (mj_uel m) /\ i64_ok (mj_text m) /\ i64_ok (mj_acro m) /\
  i64_ok (mj_nwp m) /\ i64_ok (mj_doms m) /\ mj_doms m <> 0.

(** [F] is a complete file, in byte order [bo], with these dictionaries. *)
Record image (z : zlib) (bo : border) (F : list Z) (h : fhead) (m : major) (C : contents) : Prop := mkImage {
  im_head : exists post, F = enc_head bo h ++ enc_major bo m ++ post;
  im_symb : phys_at F (mj_symb m) (phys z (is_comp h) (enc_symbs bo (c_syms C)));
  im_uel : phys_at F (mj_uel m) (phys z (is_comp h) (enc_uels bo (c_uels C)));
  im_text : phys_at F (mj_text m) (phys z (is_comp h) (enc_texts bo (c_texts C)));
  im_acro : phys_at F (mj_acro m) (phys z (is_comp h) (enc_acros bo (c_acros C)));
  im_doms : phys_at F (mj_doms m) (phys z (is_comp h) (enc_doms bo (c_dstrs C) (dom_entries 1 (c_syms C))))
}.

(** The dictionaries after opening. *)
Definition loaded (C : contents) : dic :=
  mkDic (List.map (fun e => (fst e, stored (snd e))) (c_syms C)) (List.map (fun s => (s, -1)) (c_uels C)) im_new None
    (Some (List.map (fun s => (s, 0)) (c_texts C))) None (List.map stored_acro (c_acros C)) []
    (List.map (fun s => (s, tt)) (c_dstrs C)) (zlen (c_uels C)) true true true.

(** The object after opening (up to its stream). *)
Definition opened (name : str) (F : list Z) (bo : border) (h : fhead) (m : major) (C : contents) (st : gst) : gst :=
  let w := set_w_rd None (g_wrk st) in
  mkGst fr_init (g_aft st) (set_e_tab default_tab (set_e_rtab default_tab (g_env st)))
    (mkFil name (f_strm (g_fil st)) F (f_ops (g_fil st)) bo GDX_VERSION (h_compr h) (f_compout (g_fil st))
       (is_comp h) (zlen (enc_head bo h)) (mj_nwp m) (h_sysid h) (h_prod h) 1)
    (loaded C) (mkErr 0 0 0 (r_list (g_err st)))
    (match c_syms C with
     | [] => set_w_cur (match w_cur w with CSym _ => CDangling | c => c end) w
     | _ => set_w_cur (CSym (zlen (c_syms C))) w
     end) (g_sli st).

Ltac psteps tac :=
  lazymatch goal with
  | R : rdv _ ?F ?c ?v ?s |- context [s_parse ?z ?p (ws ?s ?ops ?X)] =>
     let E := fresh "E" in let EE := fresh "EE" in let s1 := fresh "s" in let o1 := fresh "ops" in let R1 := fresh "R" in
     eassert (E : p v = Some (_, _)) by (tac);
     destruct (s_parse_ok z p F c v s ops X _ _ R E) as (s1 & o1 & EE & R1);
     rewrite EE; clear EE E R; cbn [obind]
  end.

Ltac seek c P :=
  lazymatch goal with
  | R : rd_ok ?F ?s |- context [s_setcomp ?z _ (ws ?s ?ops ?X)] =>
     let s1 := fresh "s" in let o1 := fresh "ops" in let E1 := fresh "E" in let E2 := fresh "E" in let st1 := fresh "st" in
     let R1 := fresh "R" in
     destruct (s_seek z F c _ s ops X R P) as (st1 & s1 & o1 & E1 & E2 & R1);
     rewrite E1; cbn [obind]; rewrite E2; clear E1 E2 R; cbn [obind]
  end.

Lemma str_eqb_refl : forall s, str_eqb s s = true.
Proof. intros s. apply str_eqb_spec. reflexivity. Qed.

Section Z.
Context (z : zlib).


Definition after_symbs (C : contents) (X : gst) : gst :=
  let l := List.map (fun e => (fst e, stored0 (snd e))) (c_syms C) in
  let X := upd_dic (fun d => set_d_nn true (set_d_names l (set_d_acros [] (set_d_filts [] d)))) X in
  match l with [] => X | _ => upd_wrk (set_w_cur (CSym (zlen l))) X end.

Lemma open_symbs_ok : forall F bo C m s ops X k, wf_contents C -> rd_ok F s ->
  f_bo (g_fil X) = bo -> f_ver (g_fil X) = GDX_VERSION ->
  phys_at F (mj_symb m) (phys z (f_uncomp (g_fil X)) (enc_symbs bo (c_syms C))) ->
  exists s' ops', rd_ok F s' /\ open_symbs z m (ws s ops X) k = k (ws s' ops' (after_symbs C X)).
Proof.
  intros F bo C m s ops X k W R BO V P.
  pose proof (phys_at_nonneg _ _ _ P) as PN.
  destruct (phys_at_read z _ F _ _ P) as [rest E]. { apply enc_symbs_ok. apply (wf_syms _ W). }
  unfold open_symbs. cbv zeta. change (f_uncomp (g_fil (ws s ops X))) with (f_uncomp (g_fil X)).
  change (f_bo (g_fil (ws s ops X))) with (f_bo (g_fil X)). change (f_ver (g_fil (ws s ops X))) with (f_ver (g_fil X)).
  seek (f_uncomp (g_fil X)) PN. rewrite E in *. unfold enc_symbs in *. rewrite <- !app_assoc in *. rewrite BO, V.
  psteps ltac:(apply p_str_enc).
  unfold check_or at 1. rewrite str_eqb_refl.
  psteps ltac:(apply (p_counted_enc bo (p_sym bo GDX_VERSION) (enc_sym bo) (fun e => (fst e, stored0 (snd e)))
                 (fun e => text_ok (fst e) /\ sym_ok (snd e)));
               [intros x r' [? ?]; apply p_sym_enc; assumption|apply (wf_syms _ W)|apply (wf_nsyms _ W)]).
  match goal with |- context [s_parse z p_str ?st] => replace st with (ws s2 ops2 (after_symbs C X)) end.
  2:{ unfold after_symbs. destruct (c_syms C); reflexivity. }
  psteps ltac:(apply p_str_enc).
  unfold check_or. rewrite str_eqb_refl. eexists. eexists. split; [eapply rdv_ok; eassumption|reflexivity].
Qed.

Definition after_uels (C : contents) (X : gst) : gst :=
  upd_dic (fun d => set_d_uels (List.map (fun s => (s, -1)) (c_uels C)) (set_d_uelcnt (zlen (c_uels C))
    (set_d_un true (set_d_uels [] (set_d_usr im_new (set_d_status None d)))))) X.

Lemma open_uels_ok : forall F bo C m s ops X k, wf_contents C -> rd_ok F s ->
  f_bo (g_fil X) = bo -> is_2001 (f_sysid (g_fil X)) = false ->
  phys_at F (mj_uel m) (phys z (f_uncomp (g_fil X)) (enc_uels bo (c_uels C))) ->
  exists s' ops', rd_ok F s' /\ open_uels z m (ws s ops X) k = k (ws s' ops' (after_uels C X)).
Proof.
  intros F bo C m s ops X k W R BO SY P.
  pose proof (phys_at_nonneg _ _ _ P) as PN.
  destruct (phys_at_read z _ F _ _ P) as [rest E]. { apply enc_uels_ok. apply (wf_uels _ W). }
  unfold open_uels. cbv zeta. change (f_uncomp (g_fil (ws s ops X))) with (f_uncomp (g_fil X)).
  change (f_bo (g_fil (ws s ops X))) with (f_bo (g_fil X)). change (f_sysid (g_fil (ws s ops X))) with (f_sysid (g_fil X)).
  seek (f_uncomp (g_fil X)) PN. rewrite E in *. unfold enc_uels in *. rewrite <- !app_assoc in *. rewrite BO, SY.
  match goal with |- context [s_parse z p_str (upd_dic ?g (ws ?s ?o ?X))] =>
    change (upd_dic g (ws s o X)) with (ws s o (upd_dic g X)) end.
  psteps ltac:(apply p_str_enc).
  unfold check_or at 1. rewrite str_eqb_refl.
  psteps ltac:(apply p_int_enc; pose proof (wf_nuels _ W); pose proof (zlen_nonneg (c_uels C)); unfold int_ok, INT_MIN, fits_int in *; lia).
  rewrite to_nat_zlen.
  psteps ltac:(apply p_strs_enc; eapply Forall_impl; [|exact (wf_uels _ W)]; intros ? [? _]; assumption).
  match goal with |- context [s_parse z p_str ?st] => change st with (ws s3 ops3 (after_uels C X)) end.
  psteps ltac:(apply p_str_enc).
  unfold check_or. rewrite str_eqb_refl. eexists. eexists. split; [eapply rdv_ok; eassumption|reflexivity].
Qed.

Lemma sl_find_none : forall {T} ci (l : list (str * T)) s, sl_find ci l s = None <->
  Forall (fun e => same_text ci (fst e) s = false) l.
Proof.
  intros T ci l s. unfold sl_find. rewrite sl_find_from_None. split.
  - intros H. apply Forall_forall. intros e I. apply In_nth_error in I. destruct I as [n I].
    apply (H (Z.of_nat n)). unfold znth. destruct (Z.ltb_spec (Z.of_nat n) 0); [lia|]. rewrite Nat2Z.id. exact I.
  - intros H i e E. rewrite Forall_forall in H. apply H. unfold znth in E.
    destruct (i <? 0); [discriminate|]. eapply nth_error_In. exact E.
Qed.

Lemma load_texts_new : forall l p nr, NoDup (p ++ l) ->
  load_texts l (zlen p) nr (List.map (fun s => (s, 0)) p) None = Done (List.map (fun s => (s, 0)) (p ++ l), None).
Proof.
  induction l as [| s l IH]; intros p nr N; cbn [load_texts]; [rewrite app_nil_r; reflexivity|].
  assert (E : sl_find false (List.map (fun s => (s, 0)) p) s = None).
  { apply sl_find_none. apply Forall_forall. intros e I. apply in_map_iff in I. destruct I as (t & <- & I). cbn [fst].
    destruct (same_text false t s) eqn:Q; [|reflexivity]. apply same_text_spec in Q. cbn in Q. subst t.
    apply NoDup_remove_2 in N. exfalso. apply N. apply in_or_app. left. exact I. }
  unfold sl_add. rewrite E. unfold zlen at 1 2. rewrite map_length, Z.eqb_refl.
  specialize (IH (p ++ [s]) nr). rewrite <- app_assoc, zlen_app in IH. change (zlen [s]) with 1 in IH.
  rewrite map_app in IH. cbn [List.map app] in IH. apply IH. exact N.
Qed.

Definition after_texts (C : contents) (X : gst) : gst :=
  upd_dic (fun d => set_d_texts (Some (List.map (fun s => (s, 0)) (c_texts C))) (set_d_maptext None
    (set_d_texts (Some []) d))) X.

Lemma open_texts_ok : forall F bo C m s ops X k, wf_contents C -> rd_ok F s ->
  f_bo (g_fil X) = bo -> d_maptext (g_dic X) = None ->
  phys_at F (mj_text m) (phys z (f_uncomp (g_fil X)) (enc_texts bo (c_texts C))) ->
  exists s' ops', rd_ok F s' /\ open_texts z m (ws s ops X) k = k (ws s' ops' (after_texts C X)).
Proof.
  intros F bo C m s ops X k W R BO MT P.
  pose proof (phys_at_nonneg _ _ _ P) as PN.
  destruct (phys_at_read z _ F _ _ P) as [rest E]. { apply enc_texts_ok. apply (wf_texts _ W). }
  unfold open_texts. cbv zeta. change (f_uncomp (g_fil (ws s ops X))) with (f_uncomp (g_fil X)).
  change (f_bo (g_fil (ws s ops X))) with (f_bo (g_fil X)).
  seek (f_uncomp (g_fil X)) PN. rewrite E in *. unfold enc_texts in *. rewrite <- !app_assoc in *. rewrite BO.
  match goal with |- context [s_parse z p_str (upd_dic ?g (ws ?s ?o ?X))] =>
    change (upd_dic g (ws s o X)) with (ws s o (upd_dic g X)) end.
  psteps ltac:(apply p_str_enc).
  unfold check_or at 1. rewrite str_eqb_refl.
  psteps ltac:(apply (p_counted_enc bo p_sstr enc_str (fun x => x) str_ok);
    [intros; apply p_sstr_enc; assumption
    |eapply Forall_impl; [|exact (wf_texts _ W)]; intros ? [? _]; assumption|exact (wf_ntexts _ W)]).
  rewrite map_id.
  match goal with |- context [load_texts _ _ _ _ ?m] => change m with (d_maptext (g_dic X)) end. rewrite MT.
  pose proof (load_texts_new (c_texts C) [] (zlen (c_texts C))) as L. change (zlen (@nil str)) with 0 in L.
  cbn [List.map app] in L. rewrite L by exact (wf_dtexts _ W). cbn [obind].
  match goal with |- context [s_parse z p_str ?st] => change st with (ws s2 ops2 (after_texts C X)) end.
  psteps ltac:(apply p_str_enc).
  unfold check_or. rewrite str_eqb_refl. eexists. eexists. split; [eapply rdv_ok; eassumption|reflexivity].
Qed.

Definition after_acros (C : contents) (X : gst) : gst := upd_dic (set_d_acros (List.map stored_acro (c_acros C))) X.

Lemma open_acros_ok : forall F bo C m s ops X k, wf_contents C -> rd_ok F s ->
  f_bo (g_fil X) = bo -> f_ver (g_fil X) = GDX_VERSION ->
  phys_at F (mj_acro m) (phys z (f_uncomp (g_fil X)) (enc_acros bo (c_acros C))) ->
  exists s' ops', rd_ok F s' /\ open_acros z m (ws s ops X) k = k (ws s' ops' (after_acros C X)).
Proof.
  intros F bo C m s ops X k W R BO V P.
  pose proof (phys_at_nonneg _ _ _ P) as PN.
  destruct (phys_at_read z _ F _ _ P) as [rest E]. { apply enc_acros_ok. apply (wf_acros _ W). }
  unfold open_acros. cbv zeta. change (f_uncomp (g_fil (ws s ops X))) with (f_uncomp (g_fil X)).
  change (f_bo (g_fil (ws s ops X))) with (f_bo (g_fil X)). change (f_ver (g_fil (ws s ops X))) with (f_ver (g_fil X)).
  rewrite V. change (7 <=? GDX_VERSION) with true. cbv iota.
  seek (f_uncomp (g_fil X)) PN. rewrite E in *. unfold enc_acros in *. rewrite <- !app_assoc in *. rewrite BO.
  psteps ltac:(apply p_str_enc).
  unfold check_or at 1. rewrite str_eqb_refl.
  psteps ltac:(apply (p_counted_enc bo (p_acro bo) (enc_acro bo) stored_acro acro_ok);
    [intros; apply p_acro_enc; assumption|exact (wf_acros _ W)|exact (wf_nacros _ W)]).
  match goal with |- context [s_parse z p_str ?st] => change st with (ws s2 ops2 (after_acros C X)) end.
  psteps ltac:(apply p_str_enc).
  unfold check_or. rewrite str_eqb_refl. eexists. eexists. split; [eapply rdv_ok; eassumption|reflexivity].
Qed.

Definition after_doms (C : contents) (X : gst) : gst :=
  upd_dic (fun d => set_d_names (set_entries (dom_entries 1 (c_syms C)) (d_names d))
    (set_d_dstrs (List.map (fun s => (s, tt)) (c_dstrs C)) (set_d_dn true (set_d_dstrs [] d)))) X.

Lemma open_doms_ok : forall F bo C m s ops X k, wf_contents C -> rd_ok F s ->
  f_bo (g_fil X) = bo -> f_ver (g_fil X) = GDX_VERSION -> mj_doms m <> 0 ->
  List.map (fun e => sy_dim (snd e)) (d_names (g_dic X)) = List.map (fun e => sy_dim (snd e)) (c_syms C) ->
  phys_at F (mj_doms m) (phys z (f_uncomp (g_fil X)) (enc_doms bo (c_dstrs C) (dom_entries 1 (c_syms C)))) ->
  exists s' ops', rd_ok F s' /\ open_doms z m (ws s ops X) k = k (ws s' ops' (after_doms C X)).
Proof.
  intros F bo C m s ops X k W R BO V M0 DI P.
  pose proof (phys_at_nonneg _ _ _ P) as PN.
  destruct (phys_at_read z _ F _ _ P) as [rest E]. { apply enc_doms_ok. apply (wf_dstrs _ W). }
  unfold open_doms. cbv zeta.
  match goal with |- context [upd_dic ?g (ws ?s ?o ?X)] =>
    change (upd_dic g (ws s o X)) with (ws s o (upd_dic g X)) end.
  match goal with |- context [ws s ops ?Y] => set (X1 := Y) end.
  change (f_uncomp (g_fil (ws s ops X1))) with (f_uncomp (g_fil X)).
  change (f_bo (g_fil (ws s ops X1))) with (f_bo (g_fil X)). change (f_ver (g_fil (ws s ops X1))) with (f_ver (g_fil X)).
  rewrite V. change (7 <=? GDX_VERSION) with true. destruct (Z.eqb_spec (mj_doms m) 0); [lia|]. cbn [andb negb].
  seek (f_uncomp (g_fil X)) PN. rewrite E in *. unfold enc_doms in *. rewrite <- !app_assoc in *. rewrite BO.
  psteps ltac:(apply p_str_enc).
  unfold check_or at 1. rewrite str_eqb_refl.
  psteps ltac:(apply (p_counted_enc bo p_sstr enc_str (fun x => x) str_ok);
    [intros; apply p_sstr_enc; assumption
    |eapply Forall_impl; [|exact (wf_dstrs _ W)]; intros ? [? _]; assumption|exact (wf_ndstrs _ W)]).
  rewrite map_id.
  match goal with |- context [upd_dic ?g (ws ?s ?o ?X)] =>
    change (upd_dic g (ws s o X)) with (ws s o (upd_dic g X)) end.
  psteps ltac:(apply p_str_enc).
  unfold check_or at 1. rewrite str_eqb_refl.
  match goal with |- context [p_entries bo ?d] => change d with (List.map (fun e => sy_dim (snd e)) (d_names (g_dic X))) end.
  rewrite DI.
  psteps ltac:(apply p_entries_enc;
    [apply dom_entries_ok; [lia|pose proof (wf_nsyms _ W); unfold fits_int in *; lia
       |eapply Forall_impl; [|exact (wf_syms _ W)]; intros e [_ H]; unfold sym_ok in H; tauto
       |intros i e' EE; replace (1 - 1 + i) with i by lia; unfold znth in *; destruct (i <? 0); [discriminate|];
        apply (map_nth_error (fun e => sy_dim (snd e))); exact EE]
    |rewrite app_length; lia]).
  match goal with |- context [s_parse z p_str ?st] => change st with (ws s4 ops4 (after_doms C X)) end.
  psteps ltac:(apply p_str_enc).
  unfold check_or. rewrite str_eqb_refl. eexists. eexists. split; [eapply rdv_ok; eassumption|reflexivity].
Qed.

(** While the header is read, the position is known. *)
Definition rdp (F : list Z) (v : list Z) (s : astream) : Prop :=
  rdv z F false v s /\ as_pos s + zlen v = zlen F.

Lemma parse_rdp : forall {A} (p : parser A) F v s ops X a v', rdp F v s -> p v = Some (a, v') ->
  exists s' ops', s_parse z p (ws s ops X) = Done (a, ws s' ops' X) /\ rdp F v' s'.
Proof.
  intros A p F v s ops X a v' [R L] P.
  exists (as_consume v' (zlen v - zlen v') s), (ORead (length v - length v') :: ops).
  unfold s_parse. cbn [f_strm ws upd_fil upd set_g_fil g_fil set_f_strm].
  rewrite (rd_flush z F s (rdv_ok z _ _ _ _ R)). destruct R as (R1 & R2 & R3). rewrite R3, P. split; [reflexivity|].
  split; [split; [exact R1|]; split; [exact R2|]; reflexivity|].
  unfold as_consume. rewrite R2. cbn [as_pos]. lia.
Qed.

Lemma getpos_rdp : forall F v s ops X, rdp F v s ->
  exists s' ops', s_getpos z (ws s ops X) = Done (zlen F - zlen v, ws s' ops' X) /\ rdp F v s'.
Proof.
  intros F v s ops X [R L]. exists s, (OGetPos :: ops).
  unfold s_getpos. cbn [f_strm ws upd_fil upd set_g_fil g_fil set_f_strm]. unfold as_getpos.
  pose proof R as (R1 & R2 & R3). unfold as_view in R3. replace (zlen F - zlen v) with (as_pos s) by lia.
  destruct (as_mode s) eqn:M; try discriminate; rewrite ?R2; (split; [reflexivity|split; assumption]).
Qed.

Ltac hstep tac :=
  lazymatch goal with
  | R : rdp ?F ?v ?s |- context [s_parse ?z ?p (ws ?s ?ops ?X)] =>
     let E := fresh "E" in let EE := fresh "EE" in let s1 := fresh "s" in let o1 := fresh "ops" in let R1 := fresh "R" in
     eassert (E : p v = Some (_, _)) by (tac);
     destruct (parse_rdp p F v s ops X _ _ R E) as (s1 & o1 & EE & R1);
     rewrite EE; clear EE E R; cbn [obind]
  end.

Definition after_header (bo : border) (h : fhead) (X : gst) : gst :=
  upd_fil (set_f_mip (zlen (enc_head bo h)))
    (upd_fil (fun f => set_f_uncomp (is_comp h) (set_f_compr (h_compr h) (set_f_sysid (h_sysid h) (set_f_prod (h_prod h) f))))
      (upd_fil (set_f_ver GDX_VERSION) (upd_fil (set_f_bo bo) X))).

Lemma open_header_ok : forall F bo h rest s ops X k, head_ok h -> rdp F F s ->
  F = enc_head bo h ++ enc_int bo MARK_BOI ++ rest ->
  exists s' ops', rdp F rest s' /\ open_header z (ws s ops X) k = k (ws s' ops' (after_header bo h X)).
Proof.
  intros F bo h rest s ops X k (H1 & H2 & H3 & H4) R E.
  assert (V : exists v, v = F) by eauto. destruct V as [v V]. rewrite <- V in R at 2. rewrite E in V.
  unfold open_header. unfold enc_head, enc_header in V. rewrite <- !app_assoc in V. subst v.
  hstep ltac:(apply p_order_enc). cbv beta iota zeta.
  change (upd_fil (set_f_bo bo) (ws s0 ops0 X)) with (ws s0 ops0 (upd_fil (set_f_bo bo) X)).
  hstep ltac:(apply p_byte_enc; unfold byte_ok, gdxHeaderNr; lia).
  unfold check_or at 1. rewrite Z.eqb_refl.
  hstep ltac:(apply p_str_enc). unfold check_or at 1. rewrite str_eqb_refl.
  hstep ltac:(apply p_int_enc; unfold int_ok, INT_MIN, INT_MAX, GDX_VERSION; lia).
  match goal with |- context [upd_fil ?g (ws ?s ?o ?X)] => change (upd_fil g (ws s o X)) with (ws s o (upd_fil g X)) end.
  unfold check_or at 1. change (GDX_VERSION <=? GDX_VERSION) with true. change (GDX_VERSION <=? 5) with false. cbv iota.
  hstep ltac:(apply p_int_enc; exact H1).
  hstep ltac:(apply p_str_enc).
  hstep ltac:(apply p_str_enc).
  match goal with |- context [upd_fil ?g (ws ?s ?o ?X)] => change (upd_fil g (ws s o X)) with (ws s o (upd_fil g X)) end.
  match goal with R : rdp _ _ ?s |- context [s_getpos z (ws ?s ?o ?X)] =>
    destruct (getpos_rdp _ _ s o X R) as (s7 & o7 & EE & R') end.
  rewrite EE. cbn [obind]. clear EE.
  match goal with |- context [upd_fil ?g (ws s7 ?o ?X)] => change (upd_fil g (ws s7 o X)) with (ws s7 o (upd_fil g X)) end.
  hstep ltac:(apply p_int_enc; unfold int_ok, INT_MIN, INT_MAX, MARK_BOI; lia).
  unfold check_or. rewrite Z.eqb_refl. eexists. eexists. split; [eassumption|].
  unfold after_header. do 4 f_equal. rewrite E, zlen_app. unfold enc_head, enc_header. lia.
Qed.

(** ** Opening *)

Lemma stored_dims : forall (l : list (str * sym)), List.map (fun e => sy_dim (snd e)) (List.map (fun e => (fst e, stored0 (snd e))) l)
  = List.map (fun e => sy_dim (snd e)) l.
Proof. intros. rewrite map_map. reflexivity. Qed.

Definition dims_of (l : list (str * sym)) : list nat := List.map (fun e => sy_dim (snd e)) l.

Lemma open_read_ok : forall bo F h m C name rm st, wf_contents C -> head_ok h -> major_ok m -> image z bo F h m C ->
  g_mode st = f_not_open -> name <> [] -> disk_get (e_disk (g_env st)) name = Some F ->
  Z.rem rm 2 = 0 -> d_maptext (g_dic st) = None ->
  exists s ops, rd_ok F s /\ open_read z name rm st = Done (ret_i 1 [0], ws s ops (opened name F bo h m C st)).
Proof.
  intros bo F h m C name rm st W H M I MO NE D RM MT. destruct I as [[post IH] IS IU IT IA ID].
  destruct M as (M1 & M2 & M3 & M4 & M5 & M6 & M7).
  assert (SE : set_entries (dom_entries 1 (c_syms C)) (List.map (fun e => (fst e, stored0 (snd e))) (c_syms C))
             = List.map (fun e => (fst e, stored (snd e))) (c_syms C)).
  { pose proof (set_entries_stored (c_syms C) []) as SE. exact SE. }
  unfold open_read. rewrite MO. cbn [mode_in]. change (negb (mode_in f_not_open [f_not_open])) with false. cbv iota zeta.
  destruct name as [| ch name]; [congruence|]. set (nm := ch :: name) in *. clearbody nm.
  match goal with |- context [e_disk (g_env ?s)] => change (e_disk (g_env s)) with (e_disk (g_env st)) end. rewrite D.
  assert (X0 : exists X, X = open_stream nm F (forget_cur (upd_wrk (set_w_rd None) (init_errors st)))) by eauto.
  destruct X0 as [X0 EX0]. rewrite <- EX0. replace X0 with (ws (as_open F) [] X0) by (rewrite EX0; reflexivity).
  destruct st as [mo aft env fil dic er wr sl].
  unfold open_stream, forget_cur, init_errors in EX0.
  match type of EX0 with _ = ?X => let Y := st_eval X in change (X0 = Y) in EX0 end.
  cbn [g_mode g_env g_dic] in *.
  unfold enc_major in IH. rewrite <- !app_assoc in IH.
  match goal with |- context [open_header z _ ?k] =>
    match type of IH with F = _ ++ _ ++ ?r =>
      destruct (open_header_ok F bo h r (as_open F) [] X0 k H) as (s1 & o1 & R1 & E1) end end.
  { split; [split; [reflexivity|]; split; reflexivity|]. cbn [as_open as_pos]. lia. }
  { exact IH. }
  rewrite E1. clear E1.
  assert (EX1 : exists X, X = after_header bo h X0) by eauto. destruct EX1 as [X1 EX1]. rewrite <- EX1.
  rewrite EX0 in EX1. unfold after_header in EX1.
  match type of EX1 with _ = ?X => let Y := st_eval X in change (X1 = Y) in EX1 end.
  replace (f_bo (g_fil (ws s1 o1 X1))) with bo by (rewrite EX1; reflexivity).
  replace (f_ver (g_fil (ws s1 o1 X1))) with GDX_VERSION by (rewrite EX1; reflexivity).
  match goal with |- context [p_major bo GDX_VERSION ?n] => generalize n end. intros nw.
  destruct (parse_rdp (p_major bo GDX_VERSION nw) F _ s1 o1 X1 _ _ R1 (p_major_enc bo nw m post M1 M2 M3 M4 M5 M6)) as (s2 & o2 & E2 & R2).
  rewrite E2. cbn [obind]. clear E2 R1.
  change (upd_fil (set_f_nwp (mj_nwp m)) (ws s2 o2 X1)) with (ws s2 o2 (upd_fil (set_f_nwp (mj_nwp m)) X1)).
  assert (EX2 : exists X, X = upd_fil (set_f_nwp (mj_nwp m)) X1) by eauto. destruct EX2 as [X2 EX2]. rewrite <- EX2.
  rewrite EX1 in EX2.
  match type of EX2 with _ = ?X => let Y := st_eval X in change (X2 = Y) in EX2 end.
  destruct R2 as [R2 _]. apply rdv_ok in R2.
  match goal with |- context [open_symbs z m (ws s2 o2 X2) ?k] =>
    destruct (open_symbs_ok F bo C m s2 o2 X2 k W R2) as (s3 & o3 & R3 & E3) end.
  { rewrite EX2; reflexivity. } { rewrite EX2; reflexivity. } { rewrite EX2; exact IS. }
  rewrite E3. clear E3.
  assert (EX3 : exists X, X = after_symbs C X2) by eauto. destruct EX3 as [X3 EX3]. rewrite <- EX3.
  set (cur := match c_syms C with [] => match w_cur wr with CSym _ => CDangling | c => c end | _ => CSym (zlen (c_syms C)) end).
  assert (EX3' : X3 = set_g_wrk (set_w_cur cur (set_w_rd None wr)) (upd_dic (fun d => set_d_nn true (set_d_names
      (List.map (fun e => (fst e, stored0 (snd e))) (c_syms C)) (set_d_acros [] (set_d_filts [] d)))) X2)).
  { rewrite EX3, EX2. unfold after_symbs, cur, zlen. rewrite map_length. destruct (c_syms C); reflexivity. }
  clear EX3. rewrite EX2 in EX3'.
  match type of EX3' with _ = ?X => let Y := st_eval X in change (X3 = Y) in EX3' end.
  match goal with |- context [open_uels z m (ws s3 o3 ?X) ?k] =>
    destruct (open_uels_ok F bo C m s3 o3 X k W R3) as (s4 & o4 & R4 & E4) end.
  { rewrite EX3'; reflexivity. } { rewrite EX3'. cbn [g_fil f_sysid]. apply H. } { rewrite EX3'. exact IU. }
  rewrite E4. clear E4. rewrite RM. change (0 =? 0) with true. cbv iota.
  assert (EX4 : exists X, X = after_uels C X3) by eauto. destruct EX4 as [X4 EX4]. rewrite <- EX4.
  rewrite EX3' in EX4. unfold after_uels in EX4.
  match type of EX4 with _ = ?X => let Y := st_eval X in change (X4 = Y) in EX4 end.
  match goal with |- context [open_texts z m (ws s4 o4 ?X) ?k] =>
    destruct (open_texts_ok F bo C m s4 o4 X k W R4) as (s5 & o5 & R5 & E5) end.
  { rewrite EX4; reflexivity. } { rewrite EX4. exact MT. } { rewrite EX4. exact IT. }
  rewrite E5. clear E5.
  assert (EX5 : exists X, X = after_texts C X4) by eauto. destruct EX5 as [X5 EX5]. rewrite <- EX5.
  rewrite EX4 in EX5. unfold after_texts in EX5.
  match type of EX5 with _ = ?X => let Y := st_eval X in change (X5 = Y) in EX5 end.
  match goal with |- context [open_acros z m (ws s5 o5 ?X) ?k] =>
    destruct (open_acros_ok F bo C m s5 o5 X k W R5) as (s6 & o6 & R6 & E6) end.
  { rewrite EX5; reflexivity. } { rewrite EX5; reflexivity. } { rewrite EX5. exact IA. }
  rewrite E6. clear E6.
  assert (EX6 : exists X, X = after_acros C X5) by eauto. destruct EX6 as [X6 EX6]. rewrite <- EX6.
  rewrite EX5 in EX6. unfold after_acros in EX6.
  match type of EX6 with _ = ?X => let Y := st_eval X in change (X6 = Y) in EX6 end.
  match goal with |- context [open_doms z m (ws s6 o6 ?X) ?k] =>
    destruct (open_doms_ok F bo C m s6 o6 X k W R6) as (s7 & o7 & R7 & E7) end.
  { rewrite EX6; reflexivity. } { rewrite EX6; reflexivity. } { exact M7. }
  { rewrite EX6. cbn [g_dic d_names]. apply stored_dims. } { rewrite EX6. exact ID. }
  rewrite E7. clear E7. cbv zeta.
  assert (EX7 : exists X, X = after_doms C X6) by eauto. destruct EX7 as [X7 EX7]. rewrite <- EX7.
  rewrite EX6 in EX7. unfold after_doms in EX7.
  match type of EX7 with _ = ?X => let Y := st_eval X in change (X7 = Y) in EX7 end.
  rewrite SE in EX7.
  match goal with |- context [s_setcomp z false ?st] =>
    change st with (ws s7 o7 (upd_fil (set_f_stat 1) (set_g_mode fr_init (reset_special (upd_err (set_r_last 0) X7))))) end.
  destruct (s_setcomp_rd z F false s7 o7 (upd_fil (set_f_stat 1) (set_g_mode fr_init (reset_special (upd_err (set_r_last 0) X7)))) R7)
    as (s8 & o8 & E8 & R8).
  rewrite E8. cbn [obind]. exists s8, o8. split; [exact R8|]. f_equal. f_equal.
  rewrite EX7. unfold opened, loaded, reset_special, ws, cur.
  match goal with |- ?A = ?B => let A' := st_eval A in let B' := st_eval B in change (A' = B') end.
  destruct (c_syms C); reflexivity.
Qed.

End Z.
