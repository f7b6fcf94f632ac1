(** * Properties of symbols written with labels: C08 *)

From Coq Require Import String Permutation Sorted.
From Verif Require Import Base Prim Values FloatAcr Records LinkedData StrHash IntMap Strings AStream BufStream State
  FileImage ApiCore ApiFile ApiWrite ApiRead Api FileFacts BlockFacts StreamFacts OpenFacts DicInv WriteInv WriteSteps Journal WriteCalls WriteTrace
  Footprint SessInv FileFlow Sessions Vocab PropErr Reopen ReadFacts ReadRecs ReadLoops Cases PropNames PropMeta PropTexts Segment LabelFacts Buffered Contents Domains Wrote PropRead.
Open Scope Z_scope.
Open Scope list_scope.

(** ** Reading with labels *)

Definition labelled (d : dic) (t : Z * list Z * list Z) : Z * list str * list Z := (fst (fst t), List.map (key_label d) (snd (fst t)), snd t).
Lemma str_back : forall z st2 n dim typ wt recs rcs rrs st3, holds z st2 n dim typ wt recs -> tabs st2 standard_values standard_values -> g_mode st2 = fr_init ->
  some_record dim recs -> then_calls z rcs rrs st2 st3 -> fresh rcs rrs -> no_acronyms wt recs \/ no_numbering z st3 ->
  exists f, translates wt (reader_values rcs rrs standard_values) f /\ reads_all_str z st3 n (List.map (labelled (g_dic st3)) (as_read f None recs)).
Proof.
  intros z st2 n dim typ wt recs rcs rrs st3 H T M SR TC FR NA. pose proof (fresh_mode _ _ _ _ _ TC FR M) as M3.
  destruct (tabs_then _ _ _ _ _ _ _ TC T) as (t & T3). apply (holds_then _ _ _ _ _ _ _ _ _ _ TC) in H.
  exists (sees st3 wt). split.
  - intros x U A. eapply sees_plain; try eassumption. apply H.
  - assert (NA' : no_acronyms wt recs \/ e_nextacr (g_env st3) <= 0) by (destruct NA as [NA|NA]; [left; exact NA|right; eapply no_numbering_env; exact NA]).
    destruct (holds_items z _ _ _ _ _ _ _ _ H T3 NA' SR) as (F & tab & k & items & Q & HI & IT). destruct (IT st3 eq_refl eq_refl) as [<- I2].
    eapply items_read_str; eassumption.
Qed.

(** A label found under a number has a text, and keeps having one. *)
Lemma found_label : forall z st s k, label_found z st s k -> exists t, label z st k t.
Proof.
  intros z st s k (u & x & H). cbn [exec] in H. unfold um_find_uel in H. destruct (negb (d_un (g_dic st))); [discriminate|]. obind_inv H.
  destruct (Z.ltb_spec (uel_find (g_dic st) x0) 0); [discriminate|]. obind_inv H. injection H as E1 _ _. 
  unfold user_map in E0. destruct (znth (d_uels (g_dic st)) (uel_find (g_dic st) x0 - 1)) as [e|] eqn:ZN; [|discriminate].
  exists (fst e). apply label_iff. unfold uel_text. rewrite <- E1, ZN. reflexivity.
Qed.
Lemma label_stays : forall z cs rs a b k t, then_calls z cs rs a b -> label z a k t -> exists t', label z b k t'.
Proof.
  intros z cs rs a b k t TC L. apply label_iff in L. unfold uel_text in L.
  destruct (znth (d_uels (g_dic a)) (k - 1)) as [e|] eqn:ZN; [|discriminate]. apply znth_Some in ZN.
  assert (G : uel_count (g_dic a) <= uel_count (g_dic b)).
  { eapply (during_dic z (fun d => uel_count (g_dic a) <= uel_count d)); [|eapply during_then; exact TC|lia].
    intros c d d' _ A X. pose proof (ReadFacts.uels_grow c d d' A). lia. }
  unfold uel_count in G. destruct (znth_exists (d_uels (g_dic b)) (k - 1)) as (e' & X); [lia|].
  exists (fst e'). apply label_iff. unfold uel_text. rewrite X. reflexivity.
Qed.

(** ** C08 *)

(** One record read with labels: the position of the first change, the labels of the
    numbers, and the values. *)
Definition reads_as (z : zlib) (st : gst) (a : Z * list Z * list Z) (b : Z * list str * list Z) : Prop :=
  fst (fst b) = fst (fst a) /\ Forall2 (label z st) (snd (fst a)) (snd (fst b)) /\ snd b = snd a.

Lemma reads_as_read : forall z st f recs prev, Forall (fun r => Forall (fun k => exists t, label z st k t) (fst r)) recs ->
  Forall2 (reads_as z st) (as_read f prev recs) (List.map (labelled (g_dic st)) (as_read f prev recs)).
Proof.
  intros z st f. induction recs as [|[k v] recs IH]; intros prev FA; [constructor|]. inversion FA as [|? ? F1 F2]; subst. cbn [as_read List.map].
  constructor; [|apply IH; exact F2]. unfold reads_as, labelled. cbn [fst snd] in *. split; [reflexivity|]. split; [|reflexivity].
  clear - F1. induction F1 as [|x l (t & L) F IH']; cbn [List.map]; constructor; [|apply IH'; assumption]. pose proof L as L'. apply label_iff in L'. unfold key_label. rewrite L'. exact L.
Qed.

Lemma once_items : forall dim items recs (P : list Z -> Prop), sorted_once dim items recs -> Forall (fun r => P (fst r)) items -> Forall (fun r => P (fst r)) recs.
Proof.
  intros dim items recs P [S1 S2] FA. destruct (Z.eq_dec dim 0) as [E|E]; [rewrite (S1 E); exact FA|]. rewrite Forall_forall in *. intros [k v] I.
  apply (proj2 (S2 E)) in I. destruct I as (a & b & -> & _). apply (FA (k, v)). apply in_or_app. right. left. reflexivity.
Qed.
Lemma once_nil : forall dim items recs, sorted_once dim items recs -> dim <> 0 \/ items <> [] -> some_record dim recs.
Proof. intros dim items recs [S1 _] [H|H]; [left; exact H|]. destruct (Z.eq_dec dim 0) as [E|E]; [right; rewrite (S1 E); exact H|left; exact E]. Qed.

Lemma allowed_none : forall doms, allowed doms [] = true.
Proof. intros [|[]]; reflexivity. Qed.
Lemma domains_empty : forall dim doms items, Forall (fun r : list Z * list Z => length (fst r) = Z.to_nat dim) items -> dim = 0 -> in_domains doms items = items.
Proof.
  intros dim doms items F ->. unfold in_domains. induction F as [|[k v] l L F IH]; [reflexivity|]. cbn [filter fst] in *. destruct k; [|discriminate]. rewrite allowed_none, IH. reflexivity.
Qed.
Lemma domains_in : forall doms items (P : list Z * list Z -> Prop), Forall P items -> Forall P (in_domains doms items).
Proof. intros doms items P F. rewrite Forall_forall in *. intros x I. apply filter_In in I. apply F, I. Qed.
Lemma once_records : forall dim items recs (P : list Z * list Z -> Prop), sorted_once dim items recs -> Forall P items -> Forall P recs.
Proof.
  intros dim items recs P [S1 S2] FA. destruct (Z.eq_dec dim 0) as [E|E]; [rewrite (S1 E); exact FA|]. rewrite Forall_forall in *. intros [k v] I.
  apply (proj2 (S2 E)) in I. destruct I as (a & b & -> & _). apply FA. apply in_or_app. right. left. reflexivity.
Qed.

(** The records come back: those handed over whose labels are in the domains, if there are
    any, in the order of the label numbers, each index tuple once, with its first values. *)
Theorem C08_strings_come_back : forall z sd sq st2 n dim typ wt doms handed rcs rrs st3, str_written z sd sq st2 n dim typ wt doms handed -> dim <> 0 \/ handed <> [] ->
  then_calls z rcs rrs st2 st3 -> fresh rcs rrs -> Forall (fun h => Forall (fun x => is_acronym wt x = false) (snd h)) handed \/ no_numbering z st3 ->
  exists items recs f l, Forall2 (numbered_by z st2) handed items /\ sorted_once dim (in_domains doms items) recs /\
    translates wt (reader_values rcs rrs standard_values) f /\
    reads_all_str z st3 n l /\ Forall2 (reads_as z st3) (as_read f None recs) l.
Proof.
  intros z sd sq st2 n dim typ wt doms handed rcs rrs st3 W NE TC FR NA. destruct (str_settled _ _ _ _ _ _ _ _ _ _ W) as (items & NB & d & wrb & rs & _ & _ & IL & SO & HO & TA & M & _).
  set (recs := keep d wrb None rs) in *. clearbody recs.
  assert (NE' : dim <> 0 \/ in_domains doms items <> []).
  { destruct (Z.eq_dec dim 0) as [E|E]; [right|left; exact E]. rewrite (domains_empty dim); [|eapply Forall_impl; [|exact IL]; intros x X; apply X|exact E].
    destruct NE as [X|X]; [contradiction|]. intros ->. inversion NB; subst. apply X. reflexivity. }
  assert (NA' : no_acronyms wt recs \/ no_numbering z st3).
  { destruct NA as [NA|NA]; [left|right; exact NA].
    apply (once_records _ _ _ (fun r => Forall (fun x => is_acronym wt x = false) (snd r)) SO). apply domains_in.
    clear - NB NA. induction NB as [|h it hs its [_ X] F IH]; constructor; inversion NA; subst; [rewrite X; assumption|auto]. }
  destruct (str_back _ _ _ _ _ _ _ _ _ _ HO TA M (once_nil _ _ _ SO NE') TC FR NA') as (f & TR & RA).
  exists items, recs, f. eexists. split; [exact NB|]. split; [exact SO|]. split; [exact TR|]. split; [exact RA|].
  apply reads_as_read. apply (once_records _ _ _ (fun r => Forall (fun k => exists t, label z st3 k t) (fst r)) SO). apply domains_in.
  clear - NB TC. induction NB as [|h it hs its [X _] F IH]; constructor; [|exact IH]. clear - X TC. induction X as [|s k ss ks L F IH]; constructor; [|exact IH].
  destruct (found_label _ _ _ _ L) as (t & T). eapply label_stays; eassumption.
Qed.

(** In a file just opened these are the labels handed over, without trailing blanks, in
    the spelling of their first use. *)
Theorem C08_labels_handed_over : forall z sd sq st2 n dim typ wt doms handed s k t, str_written z sd sq st2 n dim typ wt doms handed -> label_found z st2 s k -> label z st2 k t ->
  upper t = upper (trim_right s).
Proof.
  intros z sd sq st2 n dim typ wt doms handed s k t (name & prod & compr & pre & sp & id & text & uinfo & dcs & body & r & rdcs & rbody & rd & post & st & s1 & IP & _) LF LT.
  pose proof IP as (rp & rq & _ & _ & _ & RO). pose proof RO as (WST & _). destruct (writes_labels _ _ _ _ _ _ _ WST) as (LST & _ & UST).
  destruct (C20_labels_are_found_again _ _ _ _ _ _ _ _ RO) as [A B]. apply A in LT. apply B in LF. apply label_found_spec in LF; [|assumption..].
  apply found_iff in LF. destruct LF as [LF _]. apply sl_find_Some in LF. destruct LF as (e & E1 & E2). apply label_iff in LT. unfold uel_text in LT.
  replace (k - 1 + 1 - 1) with (k - 1) in E1 by lia. rewrite E1 in LT. injection LT as <-. apply same_text_spec in E2. exact E2.
Qed.

(** ** Refused records: C08, C31, C45 *)

(** Every record that is not stored is one error. *)
Lemma note_dom_tot : forall k v e, r_tot (note_dom k v e) = r_tot e.
Proof. intros k v e. unfold note_dom. destruct (r_list e); [destruct (11 <=? zlen l); [reflexivity|destruct (some_unseen k 0 l); reflexivity]|reflexivity]. Qed.
Lemma note_error_tot : forall k v e, r_tot (note_error k v e) = r_tot e.
Proof. intros k v e. unfold note_error. destruct (r_list e); [destruct (11 <=? zlen l); reflexivity|reflexivity]. Qed.
Lemma refused_count : forall d wrb rs prev e, r_tot (refused_errs d wrb prev rs e) = r_tot e + (zlen rs - zlen (keep d wrb prev rs)).
Proof.
  pose proof note_dom_tot as ND. pose proof note_error_tot as NE.
  intros d wrb. induction rs as [|[k v] rs IH]; intros prev e; cbn [refused_errs keep]; [unfold zlen; cbn; lia|].
  assert (LC : zlen ((k, v) :: rs) = zlen rs + 1) by (unfold zlen; cbn [length]; lia).
  assert (LD : forall l, zlen ((k, v) :: l) = zlen l + 1) by (intros l; unfold zlen; cbn [length]; lia).
  destruct (any_violation d wrb k); [rewrite IH, ND; cbn [raise r_tot]; lia|].
  destruct prev as [p|]; [|rewrite IH, !LD; lia]. destruct k as [|k0 k]; [rewrite IH, !LD; lia|].
  destruct (list_eq_dec Z.eq_dec p (k0 :: k)); [rewrite IH, NE; cbn [raise r_tot]; lia|rewrite IH, !LD; lia].
Qed.

Lemma settled_count : forall z sd sq st2 n dim typ wt doms items recs e, settled z sd sq st2 n dim typ wt doms items -> sorted_once dim (in_domains doms items) recs ->
  errors z sd e -> errors z sq (e + (zlen items - zlen recs)).
Proof.
  intros z sd sq st2 n dim typ wt doms items recs e (d & wrb & rs & SS & _ & _ & SO & _ & _ & _ & _ & ER & _) S E. pose proof (sorted_once_unique _ _ _ _ S SO) as ->.
  apply errors_iff in E. apply errors_iff. rewrite ER. cbn [r_tot set_r_cnt]. rewrite refused_count, E. f_equal. f_equal.
  destruct SS as (P & _). apply Permutation_length in P. unfold zlen. lia.
Qed.

(** Finishing the symbol counts one error for each record that is not read back: for one
    that is not in the domains, and for each later one with the same labels. *)
Theorem C08_refused_are_counted : forall z sd sq st2 n dim typ wt doms handed items recs e, str_written z sd sq st2 n dim typ wt doms handed ->
  Forall2 (numbered_by z st2) handed items -> sorted_once dim (in_domains doms items) recs -> errors z sd e ->
  errors z sq (e + (zlen handed - zlen recs)).
Proof.
  intros z sd sq st2 n dim typ wt doms handed items recs e W NB SO E. destruct (str_settled _ _ _ _ _ _ _ _ _ _ W) as (items' & NB' & ST).
  pose proof (Forall2_fun _ _ _ _ (numbered_by_fun z st2) NB NB') as <-. replace (zlen handed) with (zlen items) by (apply Forall2_length in NB; unfold zlen; lia).
  eapply settled_count; eassumption.
Qed.
