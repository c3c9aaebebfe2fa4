(* Lemmas about Base.v *)
From Coq Require Import String Ascii List Bool Arith NArith Lia.
From Verif Require Import Base.
Import ListNotations.
Open Scope list_scope.

(* ---------------------------------------------------------------- maps *)
Lemma smap_get_insert {V} (m : smap V) k v k' :
  smap_get (smap_insert k v m) k' = if String.eqb k' k then Some v else smap_get m k'.
Proof.
  unfold smap_insert; cbn [smap_get].
  destruct (String.eqb_spec k' k) as [E|E]; [reflexivity|].
  induction m as [|[x w] m IH]; [reflexivity|]; cbn [filter fst].
  destruct (String.eqb_spec k x) as [E2|E2]; cbn [negb smap_get].
  - subst. rewrite IH. destruct (String.eqb_spec k' x) as [E3|E3]; [congruence|reflexivity].
  - destruct (String.eqb_spec k' x); [reflexivity|exact IH].
Qed.
Lemma smap_get_insert_same {V} (m : smap V) k v : smap_get (smap_insert k v m) k = Some v.
Proof. rewrite smap_get_insert, String.eqb_refl; reflexivity. Qed.
Lemma smap_get_insert_other {V} (m : smap V) k v k' : k' <> k -> smap_get (smap_insert k v m) k' = smap_get m k'.
Proof. intros H. rewrite smap_get_insert. destruct (String.eqb_spec k' k); [contradiction|reflexivity]. Qed.

(* ---------------------------------------------------------------- vectors *)
Lemma nth_error_app_l {A} (l m : list A) n : n < length l -> nth_error (l ++ m) n = nth_error l n.
Proof. intros H. apply nth_error_app1; exact H. Qed.
Lemma nth_error_snoc {A} (l : list A) x : nth_error (l ++ [x]) (length l) = Some x.
Proof. rewrite nth_error_app2, Nat.sub_diag; [reflexivity|lia]. Qed.
Lemma nth_error_lt {A} (l : list A) n x : nth_error l n = Some x -> n < length l.
Proof. intros H. apply nth_error_Some. congruence. Qed.

Lemma set_nth_length {A} n (x : A) l : length (set_nth n x l) = length l.
Proof. revert n; induction l as [|y l IH]; intros [|n]; cbn; try reflexivity. rewrite IH; reflexivity. Qed.
Lemma nth_error_set_nth {A} (l : list A) n x m :
  nth_error (set_nth n x l) m = if Nat.eqb m n then (if Nat.ltb n (length l) then Some x else None) else nth_error l m.
Proof.
  revert n m; induction l as [|y l IH]; intros n m; cbn [set_nth length].
  - destruct (Nat.eqb_spec m n); destruct m, n; reflexivity.
  - destruct n as [|n].
    + destruct m; reflexivity.
    + destruct m as [|m]; [reflexivity|]. exact (IH n m).
Qed.
Lemma set_nth_ext {A} (l : list A) n x : nth_error l n = Some x -> set_nth n x l = l.
Proof.
  revert n; induction l as [|y l IH]; intros [|n] H; cbn in *; try congruence.
  f_equal; apply IH; exact H.
Qed.

Lemma remove_nth_app {A} (l1 : list A) x l2 : remove_nth (length l1) (l1 ++ x :: l2) = l1 ++ l2.
Proof. induction l1 as [|y l1 IH]; cbn; [reflexivity|rewrite IH; reflexivity]. Qed.
Lemma remove_nth_split {A} (l : list A) n x :
  nth_error l n = Some x -> exists l1 l2, l = l1 ++ x :: l2 /\ length l1 = n /\ remove_nth n l = l1 ++ l2.
Proof.
  intros H. destruct (nth_error_split l n H) as (l1 & l2 & E & L).
  exists l1, l2. subst. split; [reflexivity|]. split; [reflexivity|]. apply remove_nth_app.
Qed.

Lemma position_some {A} (f : A -> bool) l n :
  position f l = Some n ->
  exists x, nth_error l n = Some x /\ f x = true /\ forall m y, m < n -> nth_error l m = Some y -> f y = false.
Proof.
  revert n; induction l as [|y l IH]; intros n H; cbn in H; [discriminate|].
  destruct (f y) eqn:E.
  - inversion H; subst. exists y. split; [reflexivity|]. split; [exact E|]. intros; lia.
  - destruct (position f l) as [i|] eqn:P; cbn in H; [|discriminate]. inversion H; subst.
    destruct (IH i eq_refl) as (x & N & F & B). exists x. split; [exact N|]. split; [exact F|].
    intros [|m] z L Z; cbn in Z; [congruence|]. apply (B m z); [lia|exact Z].
Qed.
Lemma position_none {A} (f : A -> bool) l : position f l = None -> forall x, In x l -> f x = false.
Proof.
  induction l as [|y l IH]; cbn; intros H x []; destruct (f y) eqn:E; try discriminate.
  - congruence.
  - destruct (position f l); [discriminate|]. apply IH; auto.
Qed.
Lemma position_none_iff {A} (f : A -> bool) l : position f l = None <-> existsb f l = false.
Proof.
  induction l as [|y l IH]; cbn; [tauto|]. destruct (f y); cbn; [split; discriminate|].
  destruct (position f l); cbn; rewrite <- IH; split; congruence.
Qed.
Lemma position_split {A} (f : A -> bool) l n :
  position f l = Some n ->
  exists l1 x l2, l = l1 ++ x :: l2 /\ length l1 = n /\ f x = true /\ existsb f l1 = false /\ remove_nth n l = l1 ++ l2.
Proof.
  revert n; induction l as [|y l IH]; intros n H; cbn in H; [discriminate|].
  destruct (f y) eqn:E.
  - inversion H; subst. exists [], y, l. repeat split; auto.
  - destruct (position f l) as [i|] eqn:P; cbn in H; [|discriminate]. inversion H; subst.
    destruct (IH i eq_refl) as (l1 & x & l2 & El & L & F & B & R).
    exists (y :: l1), x, l2. subst l. cbn. rewrite E, B, R, L. repeat split; auto.
Qed.

Lemma mem_nat_In x l : mem_nat x l = true <-> In x l.
Proof.
  unfold mem_nat. rewrite existsb_exists. split.
  - intros (y & I & E). apply Nat.eqb_eq in E. subst; exact I.
  - intros I. exists x. split; [exact I|apply Nat.eqb_refl].
Qed.
Lemma mem_nat_not_In x l : mem_nat x l = false <-> ~ In x l.
Proof. rewrite <- mem_nat_In. destruct (mem_nat x l); split; congruence. Qed.

(* ---------------------------------------------------------------- results *)
Lemma rbind_ok {A B} (r : res A) (f : A -> res B) b :
  rbind r f = Ok b -> exists a, r = Ok a /\ f a = Ok b.
Proof. destruct r; cbn; intros H; try discriminate. exists a; split; [reflexivity|exact H]. Qed.
Lemma sbind_ok {S A B} (r : S * res A) (f : S -> A -> S * res B) s b :
  sbind r f = (s, Ok b) -> exists s1 a, r = (s1, Ok a) /\ f s1 a = (s, Ok b).
Proof. destruct r as [s1 [a| | |]]; cbn; intros H; try discriminate. exists s1, a; split; [reflexivity|exact H]. Qed.
Lemma map_err_ok {S A} e (r : S * res A) s a : map_err e r = (s, Ok a) -> r = (s, Ok a).
Proof. destruct r as [s1 [x| | |]]; cbn; intros H; congruence. Qed.
Lemma map_err_fst {S A} e (r : S * res A) : fst (map_err e r) = fst r.
Proof. destruct r as [s1 [x| | |]]; reflexivity. Qed.
Lemma map_err_panic {S A} e (r : S * res A) : snd (map_err e r) = Panic <-> snd r = Panic.
Proof. destruct r as [s1 [x| | |]]; cbn; split; congruence. Qed.
Lemma unwrap_ok {A} (r : res A) a : unwrap r = Ok a -> r = Ok a.
Proof. destruct r; cbn; congruence. Qed.
Lemma expect_ok {A} (o : option A) a : expect o = Ok a -> o = Some a.
Proof. destruct o; cbn; congruence. Qed.
Lemma ok_or_ok {A} (o : option A) e a : ok_or o e = Ok a -> o = Some a.
Proof. destruct o; cbn; congruence. Qed.
Lemma obind_some {A B} (o : option A) (f : A -> option B) b : obind o f = Some b -> exists a, o = Some a /\ f a = Some b.
Proof. destruct o; cbn; intros H; [eauto|discriminate]. Qed.

(* ---------------------------------------------------------------- strings *)
Lemma str_app_nil_r s : (s ++ "")%string = s.
Proof. induction s as [|a s IH]; cbn; [reflexivity|rewrite IH; reflexivity]. Qed.
Lemma str_app_assoc a b c : ((a ++ b) ++ c)%string = (a ++ (b ++ c))%string.
Proof. induction a as [|x a IH]; cbn; [reflexivity|rewrite IH; reflexivity]. Qed.
Lemma str_app_inj_l a b c : (a ++ b)%string = (a ++ c)%string -> b = c.
Proof. induction a as [|x a IH]; cbn; intros H; [exact H|]. inversion H; auto. Qed.
Lemma str_is_empty_spec s : str_is_empty s = true <-> s = EmptyString.
Proof. destruct s; cbn; split; congruence. Qed.
Lemma str_is_empty_app a b : str_is_empty (a ++ b)%string = str_is_empty a && str_is_empty b.
Proof. destruct a; reflexivity. Qed.
Lemma opt_str_eqb_spec a b : reflect (a = b) (opt_str_eqb a b).
Proof.
  destruct a as [x|], b as [y|]; cbn; try (constructor; congruence).
  destruct (String.eqb_spec x y); constructor; congruence.
Qed.
