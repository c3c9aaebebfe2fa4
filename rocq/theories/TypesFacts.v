(* Lemmas about the generated tables *)
From Coq Require Import String Ascii List Bool Arith NArith Lia.
From Verif Require Import Base BaseFacts Types SpecTable Attrib Metadata.
Import ListNotations.
Open Scope list_scope.

Lemma nth_all_et t : nth_error all_et (et_idx t) = Some t.
Proof. destruct t; reflexivity. Qed.
Lemma nth_all_eg t : nth_error all_eg (eg_idx t) = Some t.
Proof. destruct t; reflexivity. Qed.
Lemma nth_all_at t : nth_error all_at (at_idx t) = Some t.
Proof. destruct t; reflexivity. Qed.
Lemma nth_all_ab t : nth_error all_ab (ab_idx t) = Some t.
Proof. destruct t; reflexivity. Qed.

Lemma in_all_et t : In t all_et.
Proof. eapply nth_error_In, nth_all_et. Qed.
Lemma in_all_at t : In t all_at.
Proof. eapply nth_error_In, nth_all_at. Qed.
Lemma in_all_ab t : In t all_ab.
Proof. eapply nth_error_In, nth_all_ab. Qed.

Lemma et_eqb_spec a b : reflect (a = b) (et_eqb a b).
Proof.
  unfold et_eqb. destruct (Nat.eqb_spec (et_idx a) (et_idx b)) as [E|E]; constructor; [|congruence].
  pose proof (nth_all_et a) as A. rewrite E, nth_all_et in A. congruence.
Qed.
Lemma eg_eqb_spec a b : reflect (a = b) (eg_eqb a b).
Proof.
  unfold eg_eqb. destruct (Nat.eqb_spec (eg_idx a) (eg_idx b)) as [E|E]; constructor; [|congruence].
  pose proof (nth_all_eg a) as A. rewrite E, nth_all_eg in A. congruence.
Qed.
Lemma at_eqb_spec a b : reflect (a = b) (at_eqb a b).
Proof.
  unfold at_eqb. destruct (Nat.eqb_spec (at_idx a) (at_idx b)) as [E|E]; constructor; [|congruence].
  pose proof (nth_all_at a) as A. rewrite E, nth_all_at in A. congruence.
Qed.
Lemma ab_eqb_spec a b : reflect (a = b) (ab_eqb a b).
Proof.
  unfold ab_eqb. destruct (Nat.eqb_spec (ab_idx a) (ab_idx b)) as [E|E]; constructor; [|congruence].
  pose proof (nth_all_ab a) as A. rewrite E, nth_all_ab in A. congruence.
Qed.
Lemma pt_eqb_spec a b : reflect (a = b) (pt_eqb a b).
Proof. destruct a, b; constructor; congruence. Qed.
Lemma et_eqb_refl t : et_eqb t t = true.
Proof. destruct (et_eqb_spec t t); congruence. Qed.
Lemma at_eqb_refl t : at_eqb t t = true.
Proof. destruct (at_eqb_spec t t); congruence. Qed.
Lemma ab_eqb_refl t : ab_eqb t t = true.
Proof. destruct (ab_eqb_spec t t); congruence. Qed.

(* lift a check over all constructors *)
Lemma all_et_forall (P : ElementType -> bool) : forallb P all_et = true -> forall t, P t = true.
Proof. intros H t. rewrite forallb_forall in H. apply H, in_all_et. Qed.
Lemma all_at_forall (P : AnnotationType -> bool) : forallb P all_at = true -> forall t, P t = true.
Proof. intros H t. rewrite forallb_forall in H. apply H, in_all_at. Qed.

Lemma str_match_in {A} (l : list (string * A)) s x : str_match l s = Some x -> In (s, x) l.
Proof.
  induction l as [|[k v] l IH]; cbn; [discriminate|].
  destruct (String.eqb_spec s k) as [->|N]; intros H.
  - left. congruence.
  - right. auto.
Qed.

Lemma et_from_as t : et_from_str (et_as_str t) = Some t.
Proof. destruct t; vm_compute; reflexivity. Qed.
Lemma et_tags_own : forallb (fun p => String.eqb (et_as_str (snd p)) (fst p)) et_tags = true.
Proof. vm_compute; reflexivity. Qed.
Lemma et_from_only s t : et_from_str s = Some t -> s = et_as_str t.
Proof.
  intros H. apply str_match_in in H. pose proof et_tags_own as O. rewrite forallb_forall in O.
  specialize (O _ H). apply String.eqb_eq in O. cbn in O. congruence.
Qed.
Lemma et_as_str_inj a b : et_as_str a = et_as_str b -> a = b.
Proof. intros H. pose proof (et_from_as a) as A. rewrite H, et_from_as in A. congruence. Qed.

Lemma at_from_as t : at_from_str (at_as_str t) = Some t.
Proof. destruct t; vm_compute; reflexivity. Qed.
Lemma at_names_own : forallb (fun p => String.eqb (at_as_str (snd p)) (fst p)) at_names = true.
Proof. vm_compute; reflexivity. Qed.
Lemma at_from_only s t : at_from_str s = Some t -> s = at_as_str t.
Proof.
  intros H. apply str_match_in in H. pose proof at_names_own as O. rewrite forallb_forall in O.
  specialize (O _ H). apply String.eqb_eq in O. cbn in O. congruence.
Qed.
Lemma at_as_str_inj a b : at_as_str a = at_as_str b -> a = b.
Proof. intros H. pose proof (at_from_as a) as A. rewrite H, at_from_as in A. congruence. Qed.

(* names of annotation types contain neither '/' nor '-' *)
Lemma at_no_slash t : str_contains_char "/" (at_as_str t) = false.
Proof. destruct t; reflexivity. Qed.
Lemma at_no_dash t : str_contains_char "-" (at_as_str t) = false.
Proof. destruct t; reflexivity. Qed.

Lemma split_unique c a b x y :
  str_contains_char c a = false -> str_contains_char c b = false ->
  (a ++ String c x)%string = (b ++ String c y)%string -> a = b /\ x = y.
Proof.
  revert b; induction a as [|h a IH]; intros [|k b]; cbn; intros Ha Hb E.
  - inversion E; auto.
  - inversion E; subst. rewrite Ascii.eqb_refl in Hb. discriminate.
  - inversion E; subst. rewrite Ascii.eqb_refl in Ha. discriminate.
  - inversion E; subst. apply orb_false_iff in Ha, Hb. destruct (IH b) as [-> ->]; tauto.
Qed.
Lemma contains_app c a b : str_contains_char c (a ++ b)%string = str_contains_char c a || str_contains_char c b.
Proof. induction a as [|h a IH]; cbn; [reflexivity|]. rewrite IH, orb_assoc. reflexivity. Qed.

Lemma index_id_inj t1 s1 t2 s2 : index_id t1 s1 = index_id t2 s2 -> t1 = t2 /\ s1 = s2.
Proof.
  unfold index_id. destruct s1 as [a|], s2 as [b|]; intros E.
  - destruct (split_unique "/" _ _ _ _ (at_no_slash t1) (at_no_slash t2) E) as [T S].
    apply at_as_str_inj in T. subst; auto.
  - exfalso. pose proof (at_no_slash t2) as N. rewrite <- E, contains_app in N. cbn in N.
    rewrite orb_true_r in N. discriminate.
  - exfalso. pose proof (at_no_slash t1) as N. rewrite E, contains_app in N. cbn in N.
    rewrite orb_true_r in N. discriminate.
  - apply at_as_str_inj in E. auto.
Qed.

(* groups *)
Lemma group_contains_In g t : group_contains g t = true <-> In t (group_elementtypes g).
Proof.
  unfold group_contains. rewrite existsb_exists. split.
  - intros (x & I & E). destruct (et_eqb_spec t x); [congruence|]. destruct (et_eqb_spec x t); congruence.
  - intros I. exists t. split; [exact I|apply et_eqb_refl].
Qed.
