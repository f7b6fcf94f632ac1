(** * LabelFacts: calls that leave the labels as they are *)

From Coq Require Import String.
From Verif Require Import Base Prim Values Records LinkedData StrHash IntMap Strings AStream BufStream State
  FileImage ApiCore ApiFile ApiWrite ApiRead Api FileFacts BlockFacts DicInv Footprint SessInv Sessions Vocab PropNames PropMeta.
Open Scope Z_scope.
Open Scope list_scope.

Definition relabels (c : call) : bool := match labels_of c with [] => match c with gdxRenameUEL _ _ => true | _ => false end | _ => true end.
Definition label_texts (st : gst) : list str := List.map fst (d_uels (g_dic st)).

Lemma zset_fst : forall {A B} (l : list (A * B)) i e b, znth l i = Some e -> List.map fst (zset i (fst e, b) l) = List.map fst l.
Proof.
  intros A B l i e b H. unfold znth, zset in *. destruct (i <? 0); [reflexivity|]. revert H. generalize (Z.to_nat i). clear i.
  induction l as [|x l IH]; intros [|n] H; cbn in *; try discriminate; try reflexivity.
  - injection H as ->. reflexivity.
  - f_equal. apply IH. exact H.
Qed.

Lemma labels_keep : forall z cs a b, during z cs a b -> Forall (fun c => relabels c = false) cs -> label_texts b = label_texts a.
Proof.
  intros z cs a b D F. unfold label_texts. eapply (during_dic z (fun d => List.map fst (d_uels d) = List.map fst (d_uels (g_dic a)))); [|exact D|reflexivity].
  intros c d d' I A E. rewrite Forall_forall in F. specialize (F c I). unfold relabels in F.
  destruct (uels_cases c d d' A) as [(E1 & _)|[(s & IN & _)|[(n & e & s & o & w & (EC & _) & _)|[(en & n & m & e & _ & ZE & _ & _ & _ & _ & E1 & _)|(n & e & ZE & E1 & _)]]]].
  - rewrite E1. exact E.
  - destruct (labels_of c); [destruct IN|discriminate].
  - subst c. discriminate F.
  - rewrite E1, zset_fst by exact ZE. exact E.
  - rewrite E1, zset_fst by exact ZE. exact E.
Qed.

Lemma find_texts : forall a b s, label_texts a = label_texts b -> uel_find (g_dic a) s = uel_find (g_dic b) s.
Proof. intros a b s E. unfold uel_find. rewrite (sl_find_map true (fun x : Z => x) (d_uels (g_dic a)) (d_uels (g_dic b)) s); [reflexivity|exact E]. Qed.
Lemma text_texts : forall a b n, label_texts a = label_texts b -> uel_text (g_dic a) n = uel_text (g_dic b) n.
Proof. intros a b n E. unfold uel_text. rewrite <- !znth_map. unfold label_texts in E. rewrite E. reflexivity. Qed.
