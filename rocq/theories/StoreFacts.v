(* Lemmas about Store.v *)
From Coq Require Import String List Bool Arith NArith Lia.
From Verif Require Import Base BaseFacts Store.
Import ListNotations.
Open Scope list_scope.

Section Facts.
Context {T : Type} (maxkey : N) (maybe_id : T -> option string) (assign : nat -> T -> T).
Implicit Types s : store T.
Local Notation add := (st_add maxkey maybe_id assign).

Definition st_len s := length (st_items s).

Lemma st_get_lt s k x : st_get s k = Some x -> k < st_len s.
Proof. unfold st_get. destruct (nth_error (st_items s) k) eqn:E; [|discriminate]. intros _. eapply nth_error_lt; exact E. Qed.

Lemma st_get_set s k x j :
  st_get (st_set s k x) j = if Nat.eqb j k then (if Nat.ltb k (st_len s) then Some x else None) else st_get s j.
Proof.
  unfold st_get, st_set, st_len; cbn [st_items]. rewrite nth_error_set_nth.
  destruct (Nat.eqb j k); [|reflexivity]. destruct (Nat.ltb k _); reflexivity.
Qed.
Lemma st_get_set_same s k x y : st_get s k = Some y -> st_get (st_set s k x) k = Some x.
Proof.
  intros H. rewrite st_get_set, Nat.eqb_refl. apply st_get_lt in H.
  apply Nat.ltb_lt in H. rewrite H. reflexivity.
Qed.
Lemma st_get_set_other s k x j : j <> k -> st_get (st_set s k x) j = st_get s j.
Proof. intros H. rewrite st_get_set. apply Nat.eqb_neq in H. rewrite H. reflexivity. Qed.
Lemma st_set_index s k x : st_index (st_set s k x) = st_index s.
Proof. reflexivity. Qed.
Lemma st_set_len s k x : st_len (st_set s k x) = st_len s.
Proof. unfold st_len, st_set; cbn. apply set_nth_length. Qed.

(* the three outcomes of add *)
Inductive add_spec s x : store T -> res nat -> Prop :=
  | AddDup id k : maybe_id x = Some id -> smap_get (st_index s) id = Some k -> add_spec s x s (Ok k)
  | AddNew s' : st_get_key maybe_id s x = None -> (N.of_nat (st_len s) <= maxkey)%N ->
      st_items s' = st_items s ++ [Some (assign (st_len s) x)] ->
      st_index s' = match maybe_id x with Some id => smap_insert id (st_len s) (st_index s) | None => st_index s end ->
      add_spec s x s' (Ok (st_len s))
  | AddFull : st_get_key maybe_id s x = None -> (maxkey < N.of_nat (st_len s))%N -> add_spec s x s (Err EInternal).

Lemma add_cases s x : add_spec s x (fst (add s x)) (snd (add s x)).
Proof.
  unfold st_add. destruct (st_get_key maybe_id s x) as [k|] eqn:K.
  - cbn. unfold st_get_key in K. destruct (maybe_id x) as [id|] eqn:M; [|discriminate].
    eapply AddDup; eassumption.
  - fold (st_len s). destruct (N.of_nat (st_len s) <=? maxkey)%N eqn:L; cbn.
    + apply N.leb_le in L. eapply AddNew; auto.
    + apply N.leb_gt in L. apply AddFull; assumption.
Qed.

Lemma st_get_snoc s s' o k :
  st_items s' = st_items s ++ [o] -> st_get s' k = if Nat.eqb k (st_len s) then o else st_get s k.
Proof.
  intros E. unfold st_get. rewrite E. destruct (Nat.eqb_spec k (st_len s)) as [->|N].
  - unfold st_len. rewrite nth_error_snoc. reflexivity.
  - destruct (Nat.lt_ge_cases k (st_len s)) as [L|G].
    + rewrite nth_error_app1; [reflexivity|exact L].
    + unfold st_len in *. rewrite (proj2 (nth_error_None _ _)), (proj2 (nth_error_None _ _)); [reflexivity|lia|].
      rewrite app_length; cbn; lia.
Qed.

Lemma add_new s x :
  st_get_key maybe_id s x = None -> (N.of_nat (st_len s) <= maxkey)%N ->
  snd (add s x) = Ok (st_len s) /\ st_get (fst (add s x)) (st_len s) = Some (assign (st_len s) x) /\
  st_len (fst (add s x)) = S (st_len s).
Proof.
  intros K L. destruct (add_cases s x) as [id k M G|s' _ _ E I|_ F].
  - unfold st_get_key in K. rewrite M in K. congruence.
  - split; [reflexivity|]. split.
    + rewrite (st_get_snoc s s' _ _ E), Nat.eqb_refl. reflexivity.
    + unfold st_len at 1. rewrite E, app_length; cbn. unfold st_len; lia.
  - lia.
Qed.

Lemma add_keeps s x k y : st_get s k = Some y -> st_get (fst (add s x)) k = Some y.
Proof.
  intros G. destruct (add_cases s x) as [id j M J|s' _ _ E I|_ F]; try exact G.
  rewrite (st_get_snoc s s' _ _ E). apply st_get_lt in G as L.
  destruct (Nat.eqb_spec k (st_len s)); [lia|exact G].
Qed.
Lemma add_keeps_index s x id k : smap_get (st_index s) id = Some k -> smap_get (st_index (fst (add s x))) id = Some k.
Proof.
  intros G. destruct (add_cases s x) as [id' j M J|s' K _ E I|_ F]; try exact G.
  rewrite I. destruct (maybe_id x) as [id'|] eqn:M; [|exact G].
  rewrite smap_get_insert. destruct (String.eqb_spec id id') as [->|N]; [|exact G].
  unfold st_get_key in K. rewrite M in K. congruence.
Qed.
Lemma add_len s x : st_len s <= st_len (fst (add s x)).
Proof.
  destruct (add_cases s x) as [id' j M J|s' K _ E I|_ F]; try lia.
  unfold st_len. rewrite E, app_length; lia.
Qed.

(* invariant: the index maps exactly the IDs of the stored items to their positions; no holes *)
Definition st_wf s : Prop :=
  (forall k, k < st_len s -> exists x, st_get s k = Some x) /\
  (forall id k, smap_get (st_index s) id = Some k -> exists x, st_get s k = Some x /\ maybe_id x = Some id) /\
  (forall k x id, st_get s k = Some x -> maybe_id x = Some id -> smap_get (st_index s) id = Some k).
(* and it never holds more items than the key type has values *)
Definition st_bounded s : Prop := (N.of_nat (st_len s) <= maxkey + 1)%N.

Lemma st_wf_empty : st_wf st_empty.
Proof.
  split; [|split].
  - intros k H. cbn in H. lia.
  - intros id k H. cbn in H. discriminate.
  - intros k x id H. destruct k; discriminate.
Qed.

Lemma add_wf s x : (forall k y, maybe_id (assign k y) = maybe_id y) -> st_wf s -> st_wf (fst (add s x)).
Proof.
  intros HA (Hd & Hi & Hu). destruct (add_cases s x) as [id j M J|s' K _ E I|_ F]; try (repeat split; assumption).
  assert (G : forall k, st_get s' k = if Nat.eqb k (st_len s) then Some (assign (st_len s) x) else st_get s k)
    by (intros; apply st_get_snoc; exact E).
  assert (L : st_len s' = S (st_len s)) by (unfold st_len; rewrite E, app_length; cbn; lia).
  split; [|split].
  - intros k Hk. rewrite G. destruct (Nat.eqb_spec k (st_len s)); [eauto|]. apply Hd. lia.
  - intros id k. rewrite I, G. destruct (maybe_id x) as [idx|] eqn:M.
    + rewrite smap_get_insert. destruct (String.eqb_spec id idx) as [->|N].
      * intros X; inversion X; subst. rewrite Nat.eqb_refl. eexists; split; [reflexivity|]. rewrite HA; exact M.
      * intros X. destruct (Hi _ _ X) as (y & Y & Z). apply st_get_lt in Y as L2.
        destruct (Nat.eqb_spec k (st_len s)); [lia|]. eauto.
    + intros X. destruct (Hi _ _ X) as (y & Y & Z). apply st_get_lt in Y as L2.
      destruct (Nat.eqb_spec k (st_len s)); [lia|]. eauto.
  - intros k y id. rewrite G, I. destruct (Nat.eqb_spec k (st_len s)) as [->|N].
    + intros X Y; inversion X; subst. rewrite HA in Y. rewrite Y. apply smap_get_insert_same.
    + intros X Y. pose proof (Hu _ _ _ X Y) as Z. destruct (maybe_id x) as [idx|] eqn:M; [|exact Z].
      rewrite smap_get_insert. destruct (String.eqb_spec id idx) as [->|N2]; [|exact Z].
      unfold st_get_key in K. rewrite M in K. congruence.
Qed.
Lemma add_bounded s x : st_bounded s -> st_bounded (fst (add s x)).
Proof.
  unfold st_bounded. intros B. destruct (add_cases s x) as [id j M J|s' K L E I|_ F]; try exact B.
  unfold st_len. rewrite E, app_length; cbn. unfold st_len in L. lia.
Qed.

(* writing an item that keeps its ID keeps the invariant *)
Lemma set_wf s k x y : st_get s k = Some y -> maybe_id x = maybe_id y -> st_wf s -> st_wf (st_set s k x).
Proof.
  intros G M (Hd & Hi & Hu).
  assert (A : forall j, st_get (st_set s k x) j = if Nat.eqb j k then Some x else st_get s j).
  { intros j. destruct (Nat.eqb_spec j k) as [->|N].
    - eapply st_get_set_same; exact G.
    - apply st_get_set_other; exact N. }
  split; [|split].
  - intros j Hj. rewrite st_set_len in Hj. rewrite A. destruct (Nat.eqb j k); [eauto|apply Hd; exact Hj].
  - intros id j. cbn [st_index st_set]. intros X. destruct (Hi _ _ X) as (z & Z & W). rewrite A.
    destruct (Nat.eqb_spec j k) as [->|N]; [|eauto]. exists x. split; [reflexivity|]. congruence.
  - intros j z id. rewrite A. cbn [st_index st_set]. destruct (Nat.eqb_spec j k) as [->|N].
    + intros X Y; inversion X; subst. apply (Hu k y); [exact G|]. congruence.
    + apply Hu.
Qed.

Lemma get_by_id_no_panic s id : st_wf s -> st_get_by_id s id <> Panic.
Proof.
  intros (_ & Hi & _). unfold st_get_by_id, st_id_to_key. destruct (smap_get (st_index s) id) as [k|] eqn:E; [|discriminate].
  destruct (Hi _ _ E) as (x & X & _). rewrite X. discriminate.
Qed.
Lemma get_by_id_spec s id x : st_wf s ->
  st_get_by_id s id = Ok (Some x) <-> exists k, st_get s k = Some x /\ maybe_id x = Some id.
Proof.
  intros (_ & Hi & Hu). unfold st_get_by_id, st_id_to_key. split.
  - destruct (smap_get (st_index s) id) as [k|] eqn:E; [|discriminate].
    destruct (Hi _ _ E) as (y & Y & M). rewrite Y. intros X; inversion X; subst. eauto.
  - intros (k & G & M). rewrite (Hu _ _ _ G M), G. reflexivity.
Qed.

(* histories of additions *)
Definition st_adds s (l : list T) : store T := fold_left (fun s x => fst (add s x)) l s.
Lemma adds_keeps l s k y : st_get s k = Some y -> st_get (st_adds s l) k = Some y.
Proof.
  revert s; induction l as [|x l IH]; intros s H; cbn; [exact H|]. apply IH. apply add_keeps. exact H.
Qed.
Lemma adds_len l s : st_len s <= st_len (st_adds s l).
Proof.
  revert s; induction l as [|x l IH]; intros s; cbn; [lia|].
  specialize (IH (fst (add s x))). pose proof (add_len s x). unfold st_adds in IH. lia.
Qed.
Lemma adds_wf l s : (forall k y, maybe_id (assign k y) = maybe_id y) -> st_wf s -> st_wf (st_adds s l).
Proof. intros A. revert s; induction l as [|x l IH]; intros s W; cbn; [exact W|]. apply IH. apply add_wf; assumption. Qed.
Lemma adds_bounded l s : st_bounded s -> st_bounded (st_adds s l).
Proof. revert s; induction l as [|x l IH]; intros s W; cbn; [exact W|]. apply IH. apply add_bounded; assumption. Qed.
End Facts.

Arguments st_len {T} s.

(* string stores are stores whose items are their own ID *)
Lemma ss_add_eq maxkey (s : sstore) x : ss_add maxkey s x = st_add maxkey (fun y => Some y) (fun _ y => y) s x.
Proof. reflexivity. Qed.
Definition ss_wf (s : sstore) : Prop := st_wf (fun y : string => Some y) s.
