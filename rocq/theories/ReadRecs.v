(** * ReadRecs: the records that come next

    The three things that can be read record by record: the data block of a symbol, the
    default record of a scalar without record, and the list of all labels.  [source] says
    which records come next; everything that reads records is described with it. *)

From Coq Require Import String.
From Verif Require Import Base Prim Values FloatAcr Records LinkedData StrHash IntMap Strings AStream BufStream State
  FileImage ApiCore ApiFile ApiWrite ApiRead Api FileFacts BlockFacts StreamFacts OpenFacts DicInv WriteInv Journal WriteCalls WriteTrace
  WriteSteps Footprint SessInv FileFlow Sessions Vocab Reopen ReadFacts.
Open Scope Z_scope.
Open Scope list_scope.

(** ** Values as the reader sees them *)

(** The number under which the reader sees the acronym number [n] of the file, when no
    numbers are to be given to new acronyms. *)
Definition acro_number (l : list acro) (n : Z) : Z :=
  match znth l (acro_entry n l) with
  | Some a => if ac_rmap a <=? 0 then n else ac_rmap a
  | None => n
  end.
Definition acro_shown (e : env) (l : list acro) (v : Z) : Z :=
  match dblInfo v with
  | DBL_NAN => tab_at (e_tab e) vm_valna
  | DBL_PINF => tab_at (e_tab e) vm_valpin
  | DBL_NINF => tab_at (e_tab e) vm_valmin
  | DBL_FINITE => if e_acrnan e then tab_at (e_tab e) vm_valna
                  else match d_round (fdiv v SV_ACR) with
                       | Some n => fmul SV_ACR (fofZ (acro_number l n))
                       | None => 0
                       end
  end.
Definition shown (e : env) (l : list acro) (v : sval) : Z :=
  match v with
  | SMark _ => sval_value (e_rtab e) v
  | SNum d => if fleb SV_ACR d then acro_shown e l d else d
  end.
(** Not an acronym. *)
Definition plain (v : sval) : Prop := match v with SMark _ => True | SNum d => fleb SV_ACR d = false end.

Lemma acro_index_range : forall p l n, acro_index p l n = -1 \/ (n <= acro_index p l n < n + zlen l /\
  exists a, znth l (acro_index p l n - n) = Some a /\ p a = true).
Proof.
  induction l as [|a l IH]; intros n; cbn [acro_index]; [left; reflexivity|].
  rewrite zlen_cons. pose proof (zlen_nonneg l). destruct (p a) eqn:P.
  - right. split; [lia|]. exists a. rewrite Z.sub_diag. split; [reflexivity|exact P].
  - destruct (IH (n + 1)) as [E|(R & x & E & Px)]; [left; exact E|right]. split; [lia|]. exists x. split; [|exact Px].
    unfold znth in *. destruct (Z.ltb_spec (acro_index p l (n + 1) - n) 0); [lia|].
    destruct (Z.ltb_spec (acro_index p l (n + 1) - (n + 1)) 0); [lia|].
    replace (Z.to_nat (acro_index p l (n + 1) - n)) with (S (Z.to_nat (acro_index p l (n + 1) - (n + 1)))) by lia. exact E.
Qed.

Lemma read_value_quiet : forall v st, e_nextacr (g_env st) <= 0 \/ plain v -> read_value v st = Done (shown (g_env st) (d_acros (g_dic st)) v, st).
Proof.
  intros [m|d] st Q; cbn [read_value shown]; [reflexivity|].
  destruct (fleb SV_ACR d) eqn:A; [|reflexivity]. destruct Q as [Q|Q]; [|cbn in Q; congruence].
  unfold acro_remap, acro_shown. destruct (dblInfo d) eqn:DI; try reflexivity. destruct (e_acrnan (g_env st)); [reflexivity|].
  destruct (acr_round_total d A DI) as (n & E & _). rewrite E. cbv zeta. unfold acro_number.
  destruct (Z.leb_spec (e_nextacr (g_env st)) 0) as [_|]; [|lia].
  unfold acro_entry. destruct (acro_index_range (fun a => ac_map a =? n) (d_acros (g_dic st)) 0) as [->|(R & a & ZA & _)].
  - reflexivity.
  - rewrite Z.sub_0_r in ZA. rewrite ZA. destruct (Z.ltb_spec (acro_index (fun a => ac_map a =? n) (d_acros (g_dic st)) 0) 0); [lia|].
    destruct (ac_rmap a <=? 0); reflexivity.
Qed.
Lemma read_values_quiet : forall vs st, e_nextacr (g_env st) <= 0 \/ Forall plain vs ->
  read_values vs st = Done (List.map (shown (g_env st) (d_acros (g_dic st))) vs, st).
Proof.
  induction vs as [|v vs IH]; intros st Q; cbn [read_values List.map]; [reflexivity|].
  rewrite read_value_quiet by (destruct Q as [Q|Q]; [auto|inversion Q; auto]). cbn [obind].
  rewrite IH by (destruct Q as [Q|Q]; [auto|inversion Q; auto]). reflexivity.
Qed.

(** ** Sources of records *)

(** The values of a record: stored ones, the default of a symbol, a zero. *)
Inductive given :=
| Stored (vs : list sval)
| Default (sy : sym)
| NoText.
Definition give (g : given) (st : gst) : outcome (list Z * gst) :=
  match g with
  | Stored vs => read_values vs st
  | Default sy => do v <- default_record (e_rtab (g_env st)) sy ;; Done (v, st)
  | NoText => Done ([d_zero], st)
  end.
Definition shown_all (e : env) (l : list acro) (g : given) : list Z :=
  match g with
  | Stored vs => List.map (shown e l) vs
  | Default sy => match default_record (e_rtab e) sy with Done v => v | UB => [] end
  | NoText => [d_zero]
  end.
Definition plainly (g : given) : Prop := match g with Stored vs => Forall plain vs | Default sy => data_size (sy_type sy) <> None | NoText => True end.
Definition item := (Z * list Z * given)%type.

Lemma default_total : forall rtab sy, data_size (sy_type sy) <> None -> exists v, default_record rtab sy = Done v.
Proof.
  intros rtab sy D. unfold data_size, default_record, dt_set, dt_alias, dt_par, dt_var, dt_equ in *. revert D.
  destruct (sy_type sy =? 0), (sy_type sy =? 1), (sy_type sy =? 2), (sy_type sy =? 3), (sy_type sy =? 4); cbn; intros D; solve [eexists; reflexivity|contradiction D; reflexivity].
Qed.

Definition sourced (g : given) : Prop := match g with Default sy => data_size (sy_type sy) <> None | _ => True end.
Lemma give_quiet : forall g st, e_nextacr (g_env st) <= 0 \/ plainly g -> sourced g ->
  give g st = Done (shown_all (g_env st) (d_acros (g_dic st)) g, st).
Proof.
  intros [vs|sy|] st Q S; cbn [give shown_all].
  - apply read_values_quiet. exact Q.
  - destruct (default_total (e_rtab (g_env st)) sy S) as [v ->]. reflexivity.
  - reflexivity.
Qed.

Definition stored (t : Z * list Z * list sval) : item := (fst t, Stored (snd t)).
Definition label_item (k : Z) : item := (1, [k], NoText).
Definition numbers (lo hi : Z) : list Z := List.map (fun i => lo + Z.of_nat i) (seq 0 (Z.to_nat (hi - lo + 1))).
Lemma numbers_cons : forall lo hi, lo <= hi -> numbers lo hi = lo :: numbers (lo + 1) hi.
Proof.
  intros lo hi L. unfold numbers. replace (Z.to_nat (hi - lo + 1)) with (S (Z.to_nat (hi - (lo + 1) + 1))) by lia.
  cbn [seq List.map]. rewrite Z.add_0_r. f_equal. rewrite <- seq_shift, map_map. apply map_ext. intros i. lia.
Qed.
Lemma numbers_nil : forall lo hi, hi < lo -> numbers lo hi = [].
Proof. intros lo hi L. unfold numbers. replace (Z.to_nat (hi - lo + 1)) with O by lia. reflexivity. Qed.
Lemma numbers_length : forall lo hi, length (numbers lo hi) = Z.to_nat (hi - lo + 1).
Proof. intros. unfold numbers. rewrite map_length, seq_length. reflexivity. Qed.

(** The same dictionary but for the mark that the default of a scalar is to be read. *)
Definition same_entry (a b : str * sym) : Prop := fst b = fst a /\ snd b = set_sy_scalar (sy_scalar (snd b)) (snd a).
Definition same_dic (a b : dic) : Prop := b = set_d_names (d_names b) a /\ Forall2 same_entry (d_names a) (d_names b).
Lemma same_entry_refl : forall a, same_entry a a.
Proof. intros [n []]. split; reflexivity. Qed.
Lemma same_entry_trans : forall a b c, same_entry a b -> same_entry b c -> same_entry a c.
Proof. intros [na sa] [nb sb] [nc sc] [A1 A2] [B1 B2]. split; [congruence|]. cbn [fst snd] in *. rewrite B2, A2. reflexivity. Qed.
Lemma same_dic_refl : forall d, same_dic d d.
Proof. intros []. split; [reflexivity|]. apply Forall2_refl. apply same_entry_refl. Qed.
Lemma same_dic_trans : forall a b c, same_dic a b -> same_dic b c -> same_dic a c.
Proof.
  intros a b c [A1 A2] [B1 B2]. split; [rewrite B1 at 1; rewrite A1; reflexivity|].
  eapply Forall2_trans; [apply same_entry_trans|exact A2|exact B2].
Qed.
Lemma same_dic_upd : forall d n b, same_dic d (upd_sym n (set_sy_scalar b) d).
Proof.
  intros d n b. unfold upd_sym. destruct (znth (d_names d) (n - 1)) as [e|] eqn:E; [|apply same_dic_refl].
  split; [reflexivity|]. cbn [d_names set_d_names].
  pose proof (Forall2_zset2 same_entry (d_names d) (d_names d) (n - 1) e (fst e, set_sy_scalar b (snd e))) as Z.
  rewrite (zset_same _ _ _ E) in Z. apply Z; [apply Forall2_refl; apply same_entry_refl|]. split; reflexivity.
Qed.
Lemma same_dic_parts : forall a b, same_dic a b -> d_uels b = d_uels a /\ d_usr b = d_usr a /\ d_acros b = d_acros a /\ d_filts b = d_filts a /\
  d_uelcnt b = d_uelcnt a /\ d_nn b = d_nn a /\ d_un b = d_un a /\ d_status b = d_status a /\ List.map fst (d_names b) = List.map fst (d_names a).
Proof.
  intros a b [E F]. repeat (split; [rewrite E; reflexivity|]). clear E. induction F as [|x y l m [H _] F IH]; [reflexivity|]. cbn. rewrite H, IH. reflexivity.
Qed.

Section Z.
Context (z : zlib).

Inductive source (F : list Z) (n : Z) : list item -> gst -> Prop :=
| Src_block : forall sy todo st, reading z F n sy false todo st -> (sy_dim sy <= 20)%nat -> source F n (List.map stored todo) st
| Src_empty : forall sy st, reading z F n sy true [] st -> sy_dim sy = O -> source F n [(0, [], Default sy)] st
| Src_labels : forall st, n = 0 -> w_univ (g_wrk st) = true -> w_cur (g_wrk st) = CNull -> w_dim (g_wrk st) = 1%nat -> 0 <= w_unr (g_wrk st) ->
    d_uelcnt (g_dic st) <= uel_count (g_dic st) -> (exists s, f_strm (g_fil st) = Some s /\ rd_ok F s) ->
    source F n (List.map label_item (numbers (w_unr (g_wrk st) + 1) (d_uelcnt (g_dic st)))) st.

(** What stays the same while records are read. *)
Record kept (a b : gst) : Prop := mkKept {
  kp_mode : g_mode b = g_mode a;
  kp_aft : g_aft b = g_aft a;
  kp_env : g_env b = g_env a;
  kp_err : g_err b = g_err a;
  kp_sli : g_sli b = g_sli a;
  kp_dic : same_dic (g_dic a) (g_dic b);
  kp_dim : w_dim (g_wrk b) = w_dim (g_wrk a);
  kp_doms : w_doms (g_wrk b) = w_doms (g_wrk a);
  kp_added : w_added (g_wrk b) = w_added (g_wrk a);
  kp_sort : w_sort (g_wrk b) = w_sort (g_wrk a);
  kp_rd : w_rd (g_wrk b) = w_rd (g_wrk a);
  kp_prev : w_prev (g_wrk b) = w_prev (g_wrk a)
}.

Lemma default_same : forall rtab a b, same_data a b -> sy_uinfo b = sy_uinfo a -> default_record rtab b = default_record rtab a.
Proof. intros rtab a b (_ & _ & T & _) U. unfold default_record. rewrite T, U. reflexivity. Qed.

Lemma cur_keys_all : forall st, length (w_last (g_wrk st)) = w_dim (g_wrk st) -> cur_keys st = w_last (g_wrk st).
Proof. intros st H. unfold cur_keys. rewrite <- H. apply firstn_all. Qed.

Lemma source_sourced : forall F n it todo st, source F n (it :: todo) st -> sourced (snd it).
Proof.
  intros F n it todo st H. remember (it :: todo) as l eqn:E. destruct H as [sy td st R D|sy st R D|st].
  - destruct td as [|t td]; [discriminate|]. injection E as <- _. exact I.
  - injection E as <- _. cbn. rewrite (rg_dsize _ _ _ _ _ _ _ R). discriminate.
  - destruct (numbers _ _) as [|k l]; [discriminate|]. injection E as <- _. exact I.
Qed.

Lemma source_next : forall F n af ks g todo st, source F n ((af, ks, g) :: todo) st ->
  exists st1, source F n todo st1 /\ cur_keys st1 = ks /\ w_last (g_wrk st1) = ks /\ kept st st1 /\
    do_read z st = (do (vals, st2) <- give g st1 ;; Done (Some (af, vals), st2)).
Proof.
  intros F n af ks g todo st H. remember ((af, ks, g) :: todo) as l eqn:E. destruct H as [sy td st R D|sy st R D|st N0 U CN W1 W0 UC ST].
  - destruct td as [|[[af' ks'] vs] td]; [discriminate|]. injection E as -> -> <- <-.
    pose proof (rg_keys _ _ _ _ _ _ _ R) as K. inversion K as [|? ? [K1 K2] _]; subst. cbn [fst snd] in *.
    destruct (do_read_step z F n sy af ks vs td st R) as (st1 & R1 & L & E1 & E2 & E3 & E4 & E5 & E6 & W & DR). exists st1.
    split; [apply (Src_block F n sy); assumption|]. split; [rewrite cur_keys_all; [exact L|]; rewrite L, (rg_dim _ _ _ _ _ _ _ R1); exact K1|].
    split; [exact L|]. split; [destruct W as (W1 & W2 & W3 & W4 & W5); constructor; try assumption; [rewrite E3; apply same_dic_refl|rewrite (rg_dim _ _ _ _ _ _ _ R1), (rg_dim _ _ _ _ _ _ _ R); reflexivity]|exact DR].
  - injection E as <- <- <- <-. destruct (cur_sym_reading _ _ _ _ _ _ _ R) as (s0 & CS & GS & SD & SU & SS).
    exists (upd_dic (upd_sym n (set_sy_scalar false)) st). split; [|split; [|split; [|split]]].
    + apply (Src_block F n sy []); [|lia]. destruct R. constructor; try assumption; cbn.
      * rewrite upd_sym_maptext. assumption.
      * exists (set_sy_scalar false s0). split; [apply get_sym_upd_eq; exact GS|]. split; [exact SD|]. split; [exact SU|reflexivity].
    + unfold cur_keys. cbn. rewrite (rg_dim _ _ _ _ _ _ _ R), D. reflexivity.
    + cbn. pose proof (rg_last _ _ _ _ _ _ _ R) as L. rewrite D in L. destruct (w_last (g_wrk st)); [reflexivity|discriminate].
    + constructor; try reflexivity. apply same_dic_upd.
    + unfold do_read. cbv zeta. rewrite (rg_univ _ _ _ _ _ _ _ R), CS. cbn [obind]. rewrite SS. cbn [give].
      rewrite (default_same _ _ _ SD SU). destruct (default_record _ _); reflexivity.
  - destruct (Z.leb_spec (w_unr (g_wrk st) + 1) (d_uelcnt (g_dic st))) as [LE|GT]; [|rewrite numbers_nil in E by exact GT; discriminate].
    rewrite numbers_cons in E by exact LE. injection E as <- <- <- <-.
    exists (upd_wrk (set_w_last [w_unr (g_wrk st) + 1]) (upd_wrk (set_w_unr (w_unr (g_wrk st) + 1)) st)).
    split; [|split; [|split; [|split]]].
    + match goal with |- source F n (List.map label_item (numbers _ _)) ?s => change (source F n (List.map label_item (numbers (w_unr (g_wrk s) + 1) (d_uelcnt (g_dic s)))) s) end.
      apply Src_labels; try assumption. cbn. lia.
    + unfold cur_keys. cbn. rewrite W1. reflexivity.
    + reflexivity.
    + constructor; try reflexivity. apply same_dic_refl.
    + unfold do_read. cbv zeta. rewrite U. cbn [g_dic upd_wrk]. change (g_dic (upd_wrk _ st)) with (g_dic st).
      destruct (Z.leb_spec (w_unr (g_wrk st) + 1) (d_uelcnt (g_dic st))); [reflexivity|lia].
Qed.

Lemma source_end : forall F n st, source F n [] st -> exists st1, do_read z st = Done (None, st1) /\ kept st st1 /\ cur_keys st1 = cur_keys st /\
  (exists s, f_strm (g_fil st1) = Some s /\ rd_ok F s).
Proof.
  intros F n st H. remember (@nil item) as l eqn:E. destruct H as [sy td st R D|sy st R D|st N0 U CN W1 W0 UC ST].
  - destruct td; [|discriminate]. destruct (do_read_end z F n sy st R D) as (s' & ops' & RO & DR). eexists. split; [exact DR|].
    split; [constructor; try reflexivity; apply same_dic_refl|]. split; [reflexivity|]. eexists. split; [reflexivity|exact RO].
  - discriminate.
  - destruct (Z.leb_spec (w_unr (g_wrk st) + 1) (d_uelcnt (g_dic st))) as [LE|GT]; [rewrite numbers_cons in E by exact LE; discriminate|].
    unfold do_read. cbv zeta. rewrite U. change (g_dic (upd_wrk _ st)) with (g_dic st).
    destruct (Z.leb_spec (w_unr (g_wrk st) + 1) (d_uelcnt (g_dic st))); [lia|]. eexists. split; [reflexivity|].
    split; [constructor; try reflexivity; apply same_dic_refl|]. split; [reflexivity|exact ST].
Qed.

Lemma kept_refl : forall a, kept a a.
Proof. intros a. constructor; try reflexivity. apply same_dic_refl. Qed.
Lemma kept_trans : forall a b c, kept a b -> kept b c -> kept a c.
Proof. intros a b c [] []. constructor; try congruence. eapply same_dic_trans; eassumption. Qed.

(** No number has to be given to a new acronym. *)
Definition quiet (todo : list item) (st : gst) : Prop := e_nextacr (g_env st) <= 0 \/ Forall (fun it => plainly (snd it)) todo.
Definition shows (st : gst) (g : given) : list Z := shown_all (g_env st) (d_acros (g_dic st)) g.
Lemma shows_kept : forall a b g, kept a b -> shows b g = shows a g.
Proof. intros a b g K. unfold shows. rewrite (kp_env _ _ K). destruct (same_dic_parts _ _ (kp_dic _ _ K)) as (_ & _ & -> & _). reflexivity. Qed.
Lemma quiet_tail : forall it todo a b, quiet (it :: todo) a -> kept a b -> quiet todo b.
Proof. intros it todo a b [Q|Q] K; [left; rewrite (kp_env _ _ K); exact Q|right; inversion Q; assumption]. Qed.

Lemma source_read : forall F n af ks g todo st, source F n ((af, ks, g) :: todo) st -> quiet ((af, ks, g) :: todo) st ->
  exists st1, source F n todo st1 /\ cur_keys st1 = ks /\ w_last (g_wrk st1) = ks /\ kept st st1 /\ quiet todo st1 /\
    do_read z st = Done (Some (af, shows st g), st1).
Proof.
  intros F n af ks g todo st S Q. destruct (source_next _ _ _ _ _ _ _ S) as (st1 & S1 & K1 & K2 & K3 & DR). exists st1.
  split; [exact S1|]. split; [exact K1|]. split; [exact K2|]. split; [exact K3|]. split; [eapply quiet_tail; eassumption|].
  rewrite DR, give_quiet.
  - cbn [obind]. fold (shows st1 g). rewrite (shows_kept _ _ _ K3). reflexivity.
  - destruct Q as [Q|Q]; [left; rewrite (kp_env _ _ K3); exact Q|right; inversion Q; assumption].
  - apply (source_sourced _ _ _ _ _ S).
Qed.

(** ** There is enough to read *)

Definition shrinks {A} (p : parser A) : Prop := forall l a r, p l = Some (a, r) -> (length r <= length l)%nat.
Lemma pret_le : forall {A} (a : A), shrinks (pret a).
Proof. intros A a l x r H. unfold pret in H. inversion H. lia. Qed.
Lemma pbind_le : forall {A B} (p : parser A) (f : A -> parser B), shrinks p -> (forall a, shrinks (f a)) -> shrinks (pbind p f).
Proof. intros A B p f P Q l b r H. unfold pbind in H. destruct (p l) as [[a l1]|] eqn:E; [|discriminate]. apply P in E. apply Q in H. lia. Qed.
Lemma ptake_le : forall n, shrinks (ptake n).
Proof.
  induction n as [|n IH]; intros l a r H; cbn [ptake] in H; [unfold pret in H; inversion H; lia|]. destruct l as [|b l]; [discriminate|].
  destruct (ptake n l) as [[x r']|] eqn:E; [|discriminate]. injection H as _ <-. apply IH in E. cbn. lia.
Qed.
Lemma prepeat_le : forall {A} n (p : parser A), shrinks p -> shrinks (prepeat n p).
Proof. intros A n p P. induction n as [|n IH]; cbn [prepeat]; [apply pret_le|]. apply pbind_le; [exact P|]. intros a. apply pbind_le; [exact IH|]. intros b. apply pret_le. Qed.
Lemma p_sval_le : forall bo, shrinks (p_sval bo).
Proof.
  intros bo l a r H. unfold p_sval in H. destruct l as [|b l]; [discriminate|]. destruct (b =? vm_normal).
  - destruct (p_dbl bo l) as [[d r']|] eqn:E; [|discriminate]. injection H as _ <-.
    assert (length r' <= length l)%nat; [|cbn; lia]. eapply (pbind_le (ptake 8) _ (ptake_le 8)); [|exact E]. intros x. apply pret_le.
  - injection H as _ <-. cbn. lia.
Qed.
Lemma p_elems_le : forall bo mms, shrinks (p_elems bo mms).
Proof.
  intros bo mms. induction mms as [|mm mms IH]; cbn [p_elems]; [apply pret_le|]. apply pbind_le.
  - unfold p_elem. destruct (dim_size mm); unfold p_int, p_word, p_byte; try (intros [|b l] a r H; [discriminate|inversion H; cbn; lia]);
      (apply pbind_le; [apply ptake_le|intros x; apply pret_le]).
  - intros v. apply pbind_le; [exact IH|]. intros r. apply pret_le.
Qed.
Lemma p_record_shrinks : forall bo delta dim dsize mms last l t l1, p_record bo delta dim dsize mms last l = Done (Some t, l1) -> (length l1 < length l)%nat.
Proof.
  intros bo delta dim dsize mms last l t l1 H. unfold p_record, read_keys in H. destruct l as [|b r]; [discriminate|].
  assert (V : forall af ks r1, match prepeat dsize (p_sval bo) r1 with Some (vs, r') => Done (Some (af, ks, vs), r') | None => UB end = Done (Some t, l1) ->
    (length l1 <= length r1)%nat).
  { intros af ks r1 X. destruct (prepeat dsize (p_sval bo) r1) as [[vs r']|] eqn:E; [|discriminate]. injection X as _ <-. eapply (prepeat_le dsize _ (p_sval_le bo)). exact E. }
  destruct (b >? delta).
  - destruct (b =? 255); [discriminate|]. destruct (add_last last (b - delta)); [|discriminate]. apply V in H. cbn. lia.
  - destruct (b <? 1); [discriminate|]. destruct (p_elems bo _ r) as [[ks r']|] eqn:E; [|discriminate]. apply V in H. apply p_elems_le in E. cbn. lia.
Qed.
Lemma rd_seq_shrinks : forall bo delta dim dsize mms rl l rs rl' l', rd_seq bo delta dim dsize mms rl l rs rl' l' -> (length rs + length l' <= length l)%nat.
Proof. intros bo delta dim dsize mms rl l rs rl' l' H. induction H as [|rl l af ks vs l1 rs rl' l' P H IH]; [cbn [length]; lia|]. apply p_record_shrinks in P. cbn [length]. lia. Qed.

Lemma source_fuel : forall F n todo st, source F n todo st -> (length todo < read_fuel z st)%nat.
Proof.
  intros F n todo st H. unfold read_fuel. destruct H as [sy td st R D|sy st R D|st N0 U CN W1 W0 UC ST].
  - destruct (rg_strm _ _ _ _ _ _ _ R) as (s & v & rl & rest & FS & RV & RQ). rewrite FS.
    rewrite (rd_flush z F) by (eapply rdv_ok; exact RV). destruct RV as (_ & _ & ->). apply rd_seq_shrinks in RQ. rewrite map_length. lia.
  - cbn [length]. lia.
  - rewrite map_length, numbers_length. unfold uel_count, zlen in UC. lia.
Qed.

(** ** Starting *)

Definition items_of (sy : sym) (recs : list srec) : list item :=
  if Nat.eqb (sy_dim sy) 0 && (zlen recs =? 0) then [(0, [], Default sy)]
  else List.map stored (with_first (repeat INDEX_INITIAL (sy_dim sy)) recs).

(** The object [st'] after reading has been started in mode [m]. *)
Record begun (m : gmode) (acts : list dact) (st st' : gst) : Prop := mkBegun {
  bg_mode : g_mode st' = m;
  bg_aft : g_aft st' = g_aft st;
  bg_env : g_env st' = g_env st;
  bg_dic : same_dic (g_dic st) (g_dic st');
  bg_err : g_err st' = set_r_list None (g_err st);
  bg_sli : g_sli st' = g_sli st;
  bg_doms : w_doms (g_wrk st') = acts;
  bg_dim : w_dim (g_wrk st') = length acts;
  bg_added : w_added (g_wrk st') = 0;
  bg_sort : w_sort (g_wrk st') = None;
  bg_rd : w_rd (g_wrk st') = w_rd (g_wrk st)
}.
Lemma begun_shows : forall m acts a b g, begun m acts a b -> shows b g = shows a g.
Proof. intros m acts a b g K. unfold shows. rewrite (bg_env _ _ _ _ K). destruct (same_dic_parts _ _ (bg_dic _ _ _ _ K)) as (_ & _ & -> & _). reflexivity. Qed.

Lemma unmapped_actions : forall l k, domain_actions l (repeat (-2) k) = Some (repeat dm_unmapped k).
Proof. intros l k. induction k as [|k IH]; [reflexivity|]. cbn [repeat domain_actions]. rewrite IH. reflexivity. Qed.
Lemma firstn_repeat : forall {A} (a : A) n m, (n <= m)%nat -> firstn n (repeat a m) = repeat a n.
Proof. intros A a n. induction n as [|n IH]; intros [|m] H; cbn; try reflexivity; [lia|]. rewrite IH by lia. reflexivity. Qed.
Lemma domain_actions_length : forall l doms acts, domain_actions l doms = Some acts -> length acts = length doms.
Proof.
  induction doms as [|n doms IH]; intros acts H; cbn [domain_actions] in H; [injection H as <-; reflexivity|].
  destruct (if n =? -2 then _ else _) as [a|]; [|discriminate]. destruct (domain_actions l doms) as [r|]; [|discriminate]. injection H as <-. cbn. rewrite (IH r eq_refl). reflexivity.
Qed.

Lemma start_block : forall F tab k st n nm sy recs m, reads_file z F tab k st -> g_mode st = fr_init ->
  znth tab (n - 1) = Some (nm, sy) -> sy_type sy <> dt_alias -> (sy_dim sy <= 20)%nat -> block_at z (z_host z) F sy recs -> m <> fr_map_data ->
  exists st', prepare_symbol_read z n unmapped m st = Done (zlen (items_of sy recs), st') /\ source F n (items_of sy recs) st' /\
    begun m (repeat dm_unmapped (sy_dim sy)) st st'.
Proof.
  intros F tab k st n nm sy recs m Q MO T TY D20 BL NM.
  assert (FN : firstn (sy_dim sy) unmapped = repeat (-2) (sy_dim sy)) by (apply firstn_repeat; unfold MAX_DIM; lia).
  assert (CNT : zlen recs = sy_count sy) by (destruct BL as (? & ? & ? & ? & ? & _ & _ & _ & _ & _ & C & _); exact C).
  pose proof (prepare_head z F tab k st n nm sy recs unmapped (repeat dm_unmapped (sy_dim sy)) m Q MO T TY D20 BL) as P.
  rewrite FN in P. specialize (P ltac:(unfold unmapped; rewrite repeat_length; unfold MAX_DIM; lia) (unmapped_actions _ _)).
  unfold items_of. destruct (Nat.eqb (sy_dim sy) 0 && (zlen recs =? 0)) eqn:SC.
  - destruct P as (st' & E & SD & R). exists (set_g_mode m st'). split; [exact E|].
    apply Bool.andb_true_iff in SC. destruct SC as [SC1 _]. apply Nat.eqb_eq in SC1. split.
    + apply Src_empty; [|exact SC1]. destruct R. constructor; assumption.
    + destruct SD. constructor; try assumption; try reflexivity.
      * cbn. destruct sd_dic as (b & ->). apply same_dic_upd.
      * cbn. rewrite repeat_length. exact (rg_dim _ _ _ _ _ _ _ R).
  - destruct P as (st' & s & E & SA & SD & R). unfold go_on in E.
    assert (MM : mode_in m [fr_map_data] = false) by (destruct m; try reflexivity; contradiction NM; reflexivity).
    rewrite MM in E. cbv zeta in E. exists (set_g_mode m (upd_wrk (set_w_last (repeat (-1) (sy_dim s))) st')).
    assert (DS : sy_dim s = sy_dim sy) by (destruct SA as (_ & X & _); congruence).
    assert (WF : forall r p, length (with_first p r) = length r) by (induction r as [|[a b] r IH]; intros p; cbn; [reflexivity|rewrite IH; reflexivity]).
    split.
    { rewrite E. f_equal. f_equal. unfold zlen. rewrite map_length, WF. destruct SA as (_ & _ & _ & X & _). rewrite <- X, <- CNT. reflexivity. }
    specialize (R (repeat (-1) (sy_dim s)) ltac:(rewrite repeat_length; exact DS)). split.
    + apply (Src_block F n sy); [|exact D20]. destruct R. constructor; assumption.
    + destruct SD. constructor; try assumption; try reflexivity.
      * cbn. destruct sd_dic as (b & ->). apply same_dic_upd.
      * cbn. rewrite repeat_length. exact (rg_dim _ _ _ _ _ _ _ R).
Qed.

Lemma start_labels : forall F tab k st m, reads_file z F tab k st -> g_mode st = fr_init -> m <> fr_map_data ->
  exists st', prepare_symbol_read z 0 unmapped m st = Done (k, st') /\ source F 0 (List.map label_item (numbers 1 k)) st' /\
    begun m [dm_unmapped] st st'.
Proof.
  intros F tab k st m Q MO NM. destruct Q as [Q1 (s & FS & RO) Q3 Q4 Q5 Q6 Q7 Q8 QU Q9].
  unfold prepare_symbol_read. rewrite MO.
  change (mode_in fr_init [fr_str_data; fr_map_data; fr_mapr_data; fr_raw_data]) with false. cbv iota. cbn [obind].
  change (g_mode (upd_wrk _ _)) with (g_mode st). rewrite MO. change (mode_in fr_init [fr_init]) with true. cbn [negb]. cbv iota zeta.
  change (0 =? 0) with true. cbn [negb andb obind]. cbv iota.
  change ((length unmapped <? 1)%nat) with false. cbv iota. change (firstn 1 unmapped) with [-2]. cbn [domain_actions]. change (-2 =? -2) with true. cbv iota.
  assert (MM : mode_in m [fr_map_data] = false) by (destruct m; try reflexivity; contradiction NM; reflexivity). rewrite MM.
  eexists. split; [rewrite <- Q8; reflexivity|]. split.
  - rewrite <- Q8.
    match goal with |- source F 0 _ ?s => change (source F 0 (List.map label_item (numbers (w_unr (g_wrk s) + 1) (d_uelcnt (g_dic s)))) s) end.
    apply Src_labels; try reflexivity.
    + cbn. rewrite Q8. apply QU.
    + exists s. split; assumption.
  - constructor; try reflexivity. apply same_dic_refl.
Qed.
End Z.
