(** * StreamFacts: the stream operations of the object, and data at a place of the file *)

From Verif Require Import Base Prim Values Records StrHash AStream BufStream State FileImage FileFacts.

(** [l] are the bytes of [F] from position [p] on. *)
Definition phys_at (F : list Z) (p : Z) (l : list Z) : Prop :=
  exists pre post, F = pre ++ l ++ post /\ zlen pre = p.

Lemma phys_at_nonneg : forall F p l, phys_at F p l -> 0 <= p.
Proof. intros F p l (pre & post & _ & <-). apply zlen_nonneg. Qed.

Lemma phys_at_app : forall F p l t, phys_at F p l -> phys_at (F ++ t) p l.
Proof.
  intros F p l t (pre & post & -> & E). exists pre, (post ++ t). rewrite <- !app_assoc. split; [reflexivity|assumption].
Qed.

Lemma phys_at_end : forall F l t, phys_at (F ++ l ++ t) (zlen F) l.
Proof. intros. exists F, t. split; reflexivity. Qed.

Lemma phys_at_read : forall z c F p l, phys_at F p (phys z c l) -> bytes_ok l ->
  exists rest, unphys z c (pread F p) = l ++ rest.
Proof.
  intros z c F p l (pre & post & -> & <-) B. unfold pread. rewrite skipn_zlen_app. apply unphys_phys. assumption.
Qed.

Lemma pwrite_at : forall base tail bs, pwrite (base ++ tail) (zlen base) bs = base ++ bs ++ skipn (length bs) tail.
Proof.
  intros base tail bs. unfold pwrite. destruct bs as [| b bs]; [reflexivity|].
  replace (Z.to_nat (zlen base - zlen (base ++ tail))) with O by (rewrite zlen_app; pose proof (zlen_nonneg tail); lia).
  cbn [repeat]. rewrite app_nil_r, firstn_zlen_app. f_equal. f_equal.
  unfold zlen. rewrite Nat2Z.id, skipn_app, skipn_all2 by lia.
  replace (length base + length (b :: bs) - length base)%nat with (length (b :: bs)) by lia. reflexivity.
Qed.

Section Z.
Context (z : zlib).

(** The object with a given stream (and a record of its operations). *)
Definition ws (s : astream) (ops : list sop) (X : gst) : gst :=
  upd_fil (fun f => set_f_strm (Some s) (set_f_ops ops f)) X.

Lemma ws_self : forall st s, f_strm (g_fil st) = Some s -> st = ws s (f_ops (g_fil st)) st.
Proof. intros st s H. destruct st as [? ? ? [] ? ? ? ?]. cbn in *. subst. reflexivity. Qed.
Lemma ws_log : forall s o s' ops X, s_log s o (ws s' ops X) = ws s (o :: ops) X.
Proof. reflexivity. Qed.
Lemma ws_ws : forall s ops s' ops' X, ws s ops (ws s' ops' X) = ws s ops X.
Proof. reflexivity. Qed.

(** *** Reading *)

(** Nothing is waiting to be written, and the file contains [F]. *)
Definition rd_ok (F : list Z) (s : astream) : Prop :=
  as_file s = F /\ match as_mode s with AWr _ => False | _ => True end.
(** What is read next is [v]. *)
Definition rdv (F : list Z) (c : bool) (v : list Z) (s : astream) : Prop :=
  as_file s = F /\ as_comp s = c /\ as_view z s = Some v.

Lemma rdv_ok : forall F c v s, rdv F c v s -> rd_ok F s.
Proof. intros F c v s (A & B & C). split; [assumption|]. unfold as_view in C. destruct (as_mode s); [exact I|discriminate|exact I|exact I]. Qed.

Lemma rd_flush : forall F s, rd_ok F s -> as_flush z s = s.
Proof. intros F s [_ H]. unfold as_flush. destruct (as_mode s); [reflexivity|destruct H|reflexivity|reflexivity]. Qed.

Lemma seek_rd : forall F c p s, rd_ok F s ->
  rdv F c (unphys z c (pread F p)) (as_setpos z p (as_setcomp z c s)).
Proof.
  intros F c p s R. assert (R' : rd_ok F (as_setcomp z c s) /\ as_comp (as_setcomp z c s) = c).
  { unfold as_setcomp. rewrite (rd_flush F s R). destruct R as [R1 R2].
    destruct (as_comp s || c); destruct (Bool.eqb_spec (as_comp s) c) as [E|E].
    all: split; [split|]; cbn; auto.
    all: destruct (as_mode s) as [[|]| | |]; exact I. }
  destruct R' as [R' C]. unfold as_setpos. rewrite (rd_flush F _ R'). destruct R' as [R1 R2].
  split; [exact R1|]. split; [exact C|]. unfold as_view. cbn. rewrite R1, C. reflexivity.
Qed.

Lemma s_seek : forall F c p s ops X, rd_ok F s -> 0 <= p ->
  exists st1 s' ops', s_setcomp z c (ws s ops X) = Done st1 /\ s_setpos z p st1 = Done (ws s' ops' X)
    /\ rdv F c (unphys z c (pread F p)) s'.
Proof.
  intros F c p s ops X R P.
  exists (ws (as_setcomp z c s) (OSetComp c :: ops) X), (as_setpos z p (as_setcomp z c s)), (OSetPos p :: OSetComp c :: ops).
  split; [reflexivity|]. split; [|apply seek_rd; assumption].
  unfold s_setpos. cbn [f_strm ws upd_fil upd set_g_fil g_fil set_f_strm].
  destruct (Z.ltb_spec p 0); [lia|]. reflexivity.
Qed.

Lemma s_parse_ok : forall {A} (p : parser A) F c v s ops X a v', rdv F c v s -> p v = Some (a, v') ->
  exists s' ops', s_parse z p (ws s ops X) = Done (a, ws s' ops' X) /\ rdv F c v' s'.
Proof.
  intros A p F c v s ops X a v' R P.
  exists (as_consume v' (zlen v - zlen v') s), (ORead (length v - length v') :: ops).
  unfold s_parse. cbn [f_strm ws upd_fil upd set_g_fil g_fil set_f_strm].
  rewrite (rd_flush F s (rdv_ok _ _ _ _ R)). destruct R as (R1 & R2 & R3). rewrite R3, P. split; [reflexivity|].
  split; [exact R1|]. split; [exact R2|]. reflexivity.
Qed.

Lemma s_parse_o_ok : forall {A} (p : list Z -> outcome (A * list Z)) F c v s ops X a v', rdv F c v s -> p v = Done (a, v') ->
  exists s' ops', s_parse_o z p (ws s ops X) = Done (a, ws s' ops' X) /\ rdv F c v' s'.
Proof. intros. unfold s_parse_o. eapply s_parse_ok; [eassumption|]. cbn. rewrite H0. reflexivity. Qed.

Lemma s_setcomp_rd : forall F c s ops X, rd_ok F s ->
  exists s' ops', s_setcomp z c (ws s ops X) = Done (ws s' ops' X) /\ rd_ok F s'.
Proof.
  intros F c s ops X R. exists (as_setcomp z c s), (OSetComp c :: ops). split; [reflexivity|].
  unfold as_setcomp. rewrite (rd_flush F s R). destruct R as [R1 R2].
  destruct (as_comp s || c); destruct (Bool.eqb (as_comp s) c).
  all: split; cbn; auto.
  all: destruct (as_mode s) as [[|]| | |]; exact I.
Qed.

(** *** Writing *)

(** Everything written so far is [base]; what follows in the file is left over. *)
Definition on_base (base : list Z) (s : astream) : Prop := exists tail, as_final z s = base ++ tail.

(** [pend] has been written at the end of [base], with compression [c]. *)
Definition writing (base : list Z) (c : bool) (pend : list Z) (s : astream) : Prop :=
  exists tail, as_file s = base ++ tail /\ as_pos s = zlen base /\ as_comp s = c /\
               (as_mode s = AWr pend \/ (pend = [] /\ exists b, as_mode s = AIdle b)).

Lemma as_final_setcomp : forall c s, as_final z (as_setcomp z c s) = as_final z s.
Proof.
  intros c s. unfold as_final, as_setcomp, as_flush.
  destruct (as_mode s) as [[|]| | |] eqn:M; destruct (as_comp s) eqn:C; destruct c; cbn; rewrite ?M, ?C; cbn; try rewrite M; try rewrite C; reflexivity.
Qed.

Lemma as_final_setpos : forall p s, as_final z (as_setpos z p s) = as_final z s.
Proof. intros p s. reflexivity. Qed.

Lemma writing_final : forall base c pend s, writing base c pend s ->
  exists tail, as_final z s = base ++ phys z c pend ++ tail.
Proof.
  intros base c pend s (tail & F & P & C & M). unfold as_final, as_flush. destruct M as [M|[-> [b M]]]; rewrite M; cbn [as_file].
  - rewrite F, P, C, pwrite_at. eauto.
  - exists tail. rewrite F. destruct c; reflexivity.
Qed.

Lemma writing_base : forall base c pend s, writing base c pend s -> on_base base s.
Proof. intros base c pend s W. destruct (writing_final _ _ _ _ W) as [t E]. eexists. exact E. Qed.

Lemma setpos_writing : forall base s, on_base base s ->
  writing base (as_comp s) [] (as_setpos z (zlen base) s).
Proof.
  intros base s [tail E]. exists tail. unfold as_setpos. cbn [as_file as_pos as_comp as_mode].
  split; [exact E|]. split; [reflexivity|].
  split; [unfold as_flush; destruct (as_mode s); reflexivity|]. right. split; [reflexivity|]. eexists. reflexivity.
Qed.

Lemma setcomp_comp : forall c s, as_comp (as_setcomp z c s) = c.
Proof.
  intros c s. unfold as_setcomp. destruct (Bool.eqb_spec (as_comp (if as_comp s || c then as_flush z s else s)) c); [assumption|reflexivity].
Qed.

Lemma on_base_setcomp : forall base c s, on_base base s -> on_base base (as_setcomp z c s).
Proof. intros base c s [t E]. exists t. rewrite as_final_setcomp. exact E. Qed.

Lemma write_writing : forall base c pend s bs, writing base c pend s ->
  exists s', as_write bs s = Some s' /\ writing base c (pend ++ bs) s'.
Proof.
  intros base c pend s bs (tail & F & P & C & M). unfold as_write. destruct M as [M|[-> [b M]]]; rewrite M.
  - eexists. split; [reflexivity|]. exists tail. cbn. auto.
  - eexists. split; [reflexivity|]. exists tail. cbn. auto.
Qed.

Lemma getpos_writing : forall base c pend s, writing base c pend s ->
  exists s', as_getpos z s = Some (zlen (base ++ phys z c pend), s') /\ on_base (base ++ phys z c pend) s' /\
             as_comp s' = c /\
             (c = false -> writing base c pend s') /\
             (c = true -> writing (base ++ phys z c pend) c [] s').
Proof.
  intros base c pend s W. pose proof W as (tail & F & P & C & M). destruct (writing_final _ _ _ _ W) as [t' E].
  destruct s as [fi po co mo]. cbn [as_file as_pos as_comp as_mode] in *. subst fi po co.
  destruct M as [->|[-> [b ->]]].
  - unfold as_final, as_flush in E. unfold as_getpos, as_flush. cbn [as_file as_pos as_comp as_mode] in *. rewrite <- !zlen_app.
    assert (E' : pwrite (base ++ tail) (zlen base) (phys z c pend) = (base ++ phys z c pend) ++ t') by (rewrite <- app_assoc; exact E).
    destruct c; (eexists; split; [reflexivity|]).
    + split; [exists t'; exact E'|]. split; [reflexivity|]. split; [discriminate|]. intros _.
      exists t'. split; [exact E'|]. split; [reflexivity|]. split; [reflexivity|]. right. split; [reflexivity|]. eexists. reflexivity.
    + split; [exists t'; exact E'|]. split; [reflexivity|]. split; [|discriminate]. intros _. exact W.
  - assert (PN : phys z c [] = []) by (destruct c; reflexivity). rewrite PN in *. rewrite app_nil_r.
    eexists. split; [reflexivity|]. split. { exists t'. exact E. } split; [reflexivity|]. split; intros _; exact W.
Qed.

End Z.
