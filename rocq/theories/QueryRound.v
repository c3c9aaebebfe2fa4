(* For C70: a selection in a document that was saved and loaded. *)
From Coq Require Import String List Bool Arith NArith Lia.
From Verif Require Import Base BaseFacts Types TypesFacts SpecTable Attrib AttribFacts Element Store StoreFacts Metadata Document Select DocOps Text Xml Parser Serialiser History Spec
  FrameFacts InvFacts DocFacts StoreThms InternFacts EncodeFacts LinkFacts SelSpec SelectFacts PropsSelect PropsQuery RoundFacts RoundSpec PropsResave SpanSpec.
Import ListNotations.
Open Scope list_scope.

(* ---------------------------------------------------------------- specification *)
(* [same_place d d' root k k']: element k' is in the tree of d' where element k is in the tree under root of d. Element 0
   of d' is where root is; and if k' is where k is, then child i of k' is where child i of k is. *)
Inductive same_place (d d' : document) (root : nat) : nat -> nat -> Prop :=
  | place_root : same_place d d' root root 0
  | place_child k k' i c c' : same_place d d' root k k' -> nth_error (children_of d k) i = Some c -> nth_error (children_of d' k') i = Some c' -> same_place d d' root c c'.
(* Queries whose answer survives saving and loading: they ask for elements of one type, and if they ask for a set, then
   also for a class. They ask for no processor and no subset. *)
Definition kept_query (q : query) (t : ElementType) : Prop :=
  q_elementtype q = CIs t /\ t <> ET_Feature /\ q_subset q = CAny /\ q_processor q = CAny /\
  ((q_set q = CAny /\ forall c, q_class q <> CIs c) \/
   ((exists sn, q_set q = CIs sn) /\ et_annotationtype t <> None /\ (q_class q = CSome \/ exists c, q_class q = CIs c))).

(* ---------------------------------------------------------------- the elements of a walk *)
Inductive own_walk (d : document) (r : recursion) : nat -> list nat -> Prop :=
  | own_element k e l : get_elementdata d k = Some e -> own_list d r (e_type e) (child_keys (e_data e)) l -> own_walk d r k l
with own_list (d : document) (r : recursion) : ElementType -> list nat -> list nat -> Prop :=
  | own_end t : own_list d r t [] []
  | own_down t c rest below l : descends r t -> own_walk d r c below -> own_list d r t rest l -> own_list d r t (c :: rest) (c :: below ++ l)
  | own_stay t c rest l : ~ descends r t -> own_list d r t rest l -> own_list d r t (c :: rest) (c :: l).
Scheme own_walk_mut := Induction for own_walk Sort Prop with own_list_mut := Induction for own_list Sort Prop.
Combined Scheme own_both from own_walk_mut, own_list_mut.
Lemma walk_own d r : (forall n k w, walk d r n k w -> own_walk d r k (own_keys w)) /\ (forall n k t i l w, walk_data d r n k t i l w -> own_list d r t (child_keys l) (own_keys w)).
Proof.
  apply (walk_both d r (fun n k w _ => own_walk d r k (own_keys w)) (fun n k t i l w _ => own_list d r t (child_keys l) (own_keys w))).
  - intros n k e l G W IH. econstructor; eassumption.
  - intros n k t i. constructor.
  - intros n k t i c rest below l D W1 IH1 W2 IH2. change (own_keys (mkItem (DElement c) k i n :: below ++ l)) with (c :: own_keys (below ++ l)). rewrite own_keys_app.
    change (child_keys (DElement c :: rest)) with (c :: child_keys rest). apply own_down; assumption.
  - intros n k t i x rest l D W IH. destruct x as [s|c|s|c|x]; try exact IH.
    change (own_keys (mkItem (DElement c) k i n :: l)) with (c :: own_keys l). change (child_keys (DElement c :: rest)) with (c :: child_keys rest). apply own_stay; [|exact IH]. intros Q. apply (D Q c). reflexivity.
Qed.
Lemma own_det d r : (forall k l, own_walk d r k l -> forall l', own_walk d r k l' -> l = l') /\ (forall t cs l, own_list d r t cs l -> forall l', own_list d r t cs l' -> l = l').
Proof.
  apply (own_both d r (fun k l _ => forall l', own_walk d r k l' -> l = l') (fun t cs l _ => forall l', own_list d r t cs l' -> l = l')).
  - intros k e l G O IH l' Q. inversion Q as [k0 e0 l0 G0 O0]; subst. rewrite G in G0. injection G0 as <-. apply IH, O0.
  - intros t l' Q. inversion Q. reflexivity.
  - intros t c rest below l D O1 IH1 O2 IH2 l' Q. inversion Q as [|t0 c0 rest0 b0 l0 D0 A B|t0 c0 rest0 l0 D0 B]; subst; [|contradiction]. rewrite (IH1 _ A), (IH2 _ B). reflexivity.
  - intros t c rest l D O IH l' Q. inversion Q as [|t0 c0 rest0 b0 l0 D0 A B|t0 c0 rest0 l0 D0 B]; subst; [contradiction|]. rewrite (IH _ B). reflexivity.
Qed.

(* ---------------------------------------------------------------- pairs of elements *)
Section Pairs.
Variables (d d' : document) (root : nat) (same : elementdata -> elementdata -> Prop).
Definition match_of (k k' : nat) : Prop := same_place d d' root k k' /\ exists par n, same_tree same d d' par k k' n.
Lemma content_pairs p l l' n : same_content same d d' p l l' n -> Forall2 (fun c c' => exists m, same_tree same d d' (Some p) c c' m) (child_keys l) (child_keys l').
Proof.
  intros S. induction S as [|p s l l' n S IH|p s l l' n S IH|p c c' l l' m n SX S IH]; [constructor|exact IH|exact IH|].
  change (child_keys (DElement c :: l)) with (c :: child_keys l). change (child_keys (DElement c' :: l')) with (c' :: child_keys l'). constructor; [eauto|exact IH].
Qed.
Lemma nth_pairs {A B} (P Q : A -> B -> Prop) l l' : Forall2 P l l' -> (forall i x y, nth_error l i = Some x -> nth_error l' i = Some y -> P x y -> Q x y) -> Forall2 Q l l'.
Proof. intros F. induction F as [|x y l l' H F IH]; intros K; [constructor|]. constructor; [apply (K 0); auto|]. apply IH. intros i a b X Y. apply (K (S i)); assumption. Qed.
Lemma children_match k k' e e' : match_of k k' -> get_elementdata d k = Some e -> get_elementdata d' k' = Some e' -> Forall2 match_of (child_keys (e_data e)) (child_keys (e_data e')).
Proof.
  intros (PL & par & n & S) G G'. destruct (same_tree_key _ _ _ _ _ _ _ S) as (x & x' & GX & GX' & _ & _ & _ & m & _ & SC). rewrite G in GX. injection GX as <-. rewrite G' in GX'. injection GX' as <-.
  apply content_pairs in SC. unfold content in SC. rewrite !child_keys_content in SC. eapply nth_pairs; [exact SC|]. intros i c c' C C' (m' & SX). split; [|eauto].
  apply (place_child d d' root k k' i); [exact PL| |]; unfold children_of; [rewrite G|rewrite G']; assumption.
Qed.
Lemma own_pairs r : (forall k l, own_walk d r k l -> forall k', match_of k k' -> exists l', own_walk d' r k' l' /\ Forall2 match_of l l') /\
  (forall t cs l, own_list d r t cs l -> forall cs', Forall2 match_of cs cs' -> exists l', own_list d' r t cs' l' /\ Forall2 match_of l l').
Proof.
  apply (own_both d r (fun k l _ => forall k', match_of k k' -> exists l', own_walk d' r k' l' /\ Forall2 match_of l l') (fun t cs l _ => forall cs', Forall2 match_of cs cs' -> exists l', own_list d' r t cs' l' /\ Forall2 match_of l l')).
  - intros k e l G O IH k' M. pose proof M as (_ & par & n & S). destruct (same_tree_key _ _ _ _ _ _ _ S) as (x & x' & GX & GX' & TY & _). rewrite G in GX. injection GX as <-.
    destruct (IH _ (children_match _ _ _ _ M G GX')) as (l' & O' & F). exists l'. split; [|exact F]. econstructor; [exact GX'|]. rewrite TY. exact O'.
  - intros t cs' F. inversion F; subst. exists []. split; constructor.
  - intros t c rest below l D O1 IH1 O2 IH2 cs' F. inversion F as [|? c' ? rest' M F']; subst. destruct (IH1 _ M) as (b' & OB & FB). destruct (IH2 _ F') as (l' & OL & FL).
    exists (c' :: b' ++ l'). split; [apply own_down; assumption|]. constructor; [exact M|]. apply Forall2_app; assumption.
  - intros t c rest l D O IH cs' F. inversion F as [|? c' ? rest' M F']; subst. destruct (IH _ F') as (l' & OL & FL). exists (c' :: l'). split; [apply own_stay; assumption|]. constructor; assumption.
Qed.
Lemma chosen_pairs {A B} (R : A -> B -> Prop) (P : A -> Prop) (P' : B -> Prop) l l' : Forall2 R l l' -> (forall x y, R x y -> (P x <-> P' y)) -> forall m m', chosen P l m -> chosen P' l' m' -> Forall2 R m m'.
Proof.
  intros F H. induction F as [|x y l l' XY F IH]; intros m m' C C'.
  - inversion C; inversion C'; subst. constructor.
  - inversion C as [|x0 l0 m0 PX C0|x0 l0 m0 PX C0]; inversion C' as [|y1 l1 m1 PY C1|y1 l1 m1 PY C1]; subst.
    + constructor; [exact XY|]. apply IH; assumption.
    + exfalso. apply PY, (H _ _ XY), PX.
    + exfalso. apply PX, (H _ _ XY), PY.
    + apply IH; assumption.
Qed.
Lemma match_root n : same_tree same d d' None root 0 n -> match_of root 0.
Proof. intros S. split; [constructor|eauto]. Qed.
(* every pair at the same place is part of the tree *)
Lemma place_match n : same_tree same d d' None root 0 n -> forall k k', same_place d d' root k k' -> match_of k k'.
Proof.
  intros S k k' P. induction P as [|k k' i c c' P IH C C']; [eapply match_root, S|]. pose proof IH as (_ & par & m & SK). destruct (same_tree_key _ _ _ _ _ _ _ SK) as (x & x' & GX & GX' & _).
  pose proof (children_match _ _ _ _ IH GX GX') as F. unfold children_of in C, C'. rewrite GX in C. rewrite GX' in C'. clear - F C C'. revert i C C'. induction F as [|a b l l' M F IHF]; intros [|i] C C'; try discriminate; [cbn in C, C'; congruence|]. apply (IHF i); assumption.
Qed.
End Pairs.

(* ---------------------------------------------------------------- what is selected, as a list of elements *)
Definition only_span_refs (d : document) : Prop := forall k e s, get_elementdata d k = Some e -> In (DSpanReference s) (e_data e) -> is_span d s true.
Lemma linked_refs d : spans_linked d -> only_span_refs d.
Proof.
  intros (_ & L) k e s G I'. destruct (L k e G) as (ws & _ & _ & F).
  assert (J : In s (span_refs e)) by (unfold span_refs; apply in_flat_map; exists (DSpanReference s); split; [exact I'|left; reflexivity]).
  assert (N : forall x y, nearest_span d x y -> is_span d y true) by (intros x y N; induction N; assumption).
  clear - F J N. induction F as [|a b l l' H F IH]; [destruct J|]. destruct J as [<-|J]; [eapply N, H|auto].
Qed.
Lemma items_eq d l ks : items_keys d l = Ok ks -> ks = item_keys l.
Proof.
  revert ks. induction l as [|i l IH]; intros ks H; cbn [items_keys] in H; [injection H as <-; reflexivity|]. unfold item_keys in *. cbn [flat_map]. destruct (si_data i) as [s|k|s|k|x]; cbn [item_key app]; auto;
    (destruct (get_elementdata d k); [|discriminate]; apply rbind_ok in H; destruct H as (k0 & A & B); injection B as <-; f_equal; apply IH, A).
Qed.
Lemma chosen_own d s w m : (forall i k, In i w -> si_data i = DSpanReference k -> ~ accepts d s (si_data i)) -> chosen (fun i => accepts d s (si_data i)) w m ->
  chosen (fun c => accepts d s (DElement c)) (own_keys w) (item_keys m) /\ forall i k, In i m -> si_data i <> DSpanReference k.
Proof.
  intros N C. induction C as [|i w m A C IH|i w m A C IH].
  - split; [constructor|intros i k []].
  - destruct IH as (IH & NS); [intros j k J; apply N; right; exact J|]. split.
    + unfold own_keys, item_keys in *. cbn [map flat_map]. destruct (si_data i) as [x|k|x|k|x] eqn:E; cbn [item_key app]; try exact IH.
      * change (child_keys (DElement k :: map si_data w)) with (k :: child_keys (map si_data w)). apply chosen_keep; assumption.
      * exfalso. apply (N i k); [left; reflexivity|exact E|]. rewrite E. exact A.
    + intros j k [<-|J]; [|apply NS, J]. intros E. apply (N i k); [left; reflexivity|exact E|exact A].
  - destruct IH as (IH & NS); [intros j k J; apply N; right; exact J|]. split; [|exact NS]. unfold own_keys. cbn [map]. destruct (si_data i) as [x|k|x|k|x] eqn:E; try exact IH.
    change (child_keys (DElement k :: map si_data w)) with (k :: child_keys (map si_data w)). apply chosen_drop; [exact A|exact IH].
Qed.
Lemma once_none d seen m l : once d seen m l -> (forall i, In i m -> span_of d (si_data i) = None) -> l = m.
Proof.
  intros O. induction O as [seen|seen i l m S O IH|seen i k l m S N O IH|seen i k l m S N O IH]; intros H; [reflexivity| | |].
  - f_equal. apply IH. intros j J. apply H. right. exact J.
  - rewrite (H i (or_introl eq_refl)) in S. discriminate.
  - rewrite (H i (or_introl eq_refl)) in S. discriminate.
Qed.
Lemma accepted_type d s t x : s_next s = None -> s_elementtype s = CIs t -> (x = DElement (hd 0 (item_key x)) \/ x = DSpanReference (hd 0 (item_key x))) -> accepts d s x -> exists k e, item_key x = [k] /\ get_elementdata d k = Some e /\ e_type e = t.
Proof.
  intros N T X A. apply (accepts_alone _ _ _ N) in A. destruct X as [X|X]; rewrite X in *; cbn [accepts_one] in A; destruct A as (_ & e & G & _ & M & _); rewrite T in M; cbn [meets] in M; injection M as M; eexists; exists e; (split; [reflexivity|auto]).
Qed.
(* a selection of elements of a type that is not a span annotation *)
Lemma selected d q s t r sp m k ks : only_span_refs d -> group_contains EG_Span t = false -> q_elementtype q = CIs t -> from_query d q = Ok s -> select_by_key m d k s r false sp = Ok ks ->
  forall l, own_walk d r k l -> chosen (fun c => accepts d s (DElement c)) l ks.
Proof.
  intros OS NS QT FQ S l OW. destruct (from_query_shape _ _ _ FQ) as (NX & DT & ET & _). rewrite QT in ET. unfold select_by_key in S. apply rbind_ok in S. destruct S as (it & S & IK). apply items_eq in IK. subst ks.
  destruct (matchable s) eqn:MT.
  - apply matchable_true in MT. destruct (C24_walk_happens _ _ _ _ _ _ _ MT S) as (w & W). assert (U : usable s) by (intros Q; contradiction). destruct (C24_select_order _ _ _ _ _ _ _ _ U S W) as (m0 & CH & O).
    rewrite (proj1 (own_det d r) _ _ OW _ (proj1 (walk_own d r) _ _ _ W)).
    assert (NR : forall i j, In i w -> si_data i = DSpanReference j -> ~ accepts d s (si_data i)).
    { intros i j I' E A. rewrite E in A. destruct (accepted_type d s t (DSpanReference j) NX ET (or_intror eq_refl) A) as (y & e & Y & G & TE). cbn [item_key] in Y. injection Y as ->. apply (proj1 (walk_items d r) _ _ _ W) in I'. destruct I' as (x & n & xe & _ & GX & N & _).
      rewrite E in N. apply nth_error_In in N. destruct (OS _ _ _ GX N) as (se & GS & IS). rewrite G in GS. injection GS as <-. congruence. }
    destruct (chosen_own d s w m0 NR CH) as (CO & NSP). destruct sp; [|subst it; exact CO]. rewrite (once_none _ _ _ _ O); [exact CO|].
    intros i I'. destruct (si_data i) as [x|j|x|j|x] eqn:E; try reflexivity; [|exfalso; eapply NSP; eassumption]. cbn [span_of]. apply (chosen_in _ _ _ _ CH) in I'. destruct I' as (_ & A). rewrite E in A.
    destruct (accepted_type d s t (DElement j) NX ET (or_introl eq_refl) A) as (y & e & Y & G & TE). cbn [item_key] in Y. injection Y as ->. rewrite G, TE. unfold group_contains in NS. rewrite NS. reflexivity.
  - apply matchable_spec in MT. rewrite (collect_hopeless _ _ _ _ _ _ _ _ MT S). clear OW. induction l as [|c l IH]; [constructor|]. apply chosen_drop; [apply select_hopeless_accepts; assumption|exact IH].
Qed.
(* the elements below k that are accepted are selected, in any case *)
Lemma selected_in d q s r sp m k ks : from_query d q = Ok s -> select_by_key m d k s r false sp = Ok ks -> forall l, own_walk d r k l -> forall c, In c l -> accepts d s (DElement c) -> In c ks.
Proof.
  intros FQ S l OW c I' A. destruct (from_query_shape _ _ _ FQ) as (NX & DT & ET & _). unfold select_by_key in S. apply rbind_ok in S. destruct S as (it & S & IK). apply items_eq in IK. subst ks.
  destruct (matchable s) eqn:MT; [|apply matchable_spec in MT; destruct (select_hopeless_accepts d s c MT NX A)].
  apply matchable_true in MT. destruct (C24_walk_happens _ _ _ _ _ _ _ MT S) as (w & W). assert (U : usable s) by (intros Q; contradiction). destruct (C24_select_order _ _ _ _ _ _ _ _ U S W) as (m0 & CH & O).
  rewrite (proj1 (own_det d r) _ _ OW _ (proj1 (walk_own d r) _ _ _ W)) in I'. apply own_keys_in in I'. destruct I' as (i & I' & E).
  assert (J : In i m0) by (apply (chosen_in _ _ _ _ CH); split; [exact I'|rewrite E; exact A]).
  assert (X : forall j, In j it -> item_key (si_data j) = [c] -> In c (item_keys it)). { intros j JI EJ. unfold item_keys. apply in_flat_map. exists j. split; [exact JI|]. rewrite EJ. left. reflexivity. }
  destruct sp; [|subst it; apply (X i J); rewrite E; reflexivity]. destruct (once_covers _ _ _ _ O i J) as [J'|(k' & S' & [[]|Y])]; [apply (X i J'); rewrite E; reflexivity|].
  rewrite E in S'. cbn [span_of] in S'. destruct (get_elementdata d c) as [e|]; [|discriminate]. destruct (existsb _ _); [|discriminate]. injection S' as <-. destruct Y as (j & JI & SJ).
  apply (X j JI). destruct (si_data j) as [x|y|x|y|x]; cbn [span_of] in SJ; try discriminate; cbn [item_key]; [|congruence]. destruct (get_elementdata d y) as [ye|]; [|discriminate]. destruct (existsb _ _); [|discriminate]. congruence.
Qed.
Lemma selected_accepts d q s r sp m k ks : from_query d q = Ok s -> select_by_key m d k s r false sp = Ok ks -> forall c, In c ks -> accepts d s (DElement c).
Proof.
  intros FQ S c I'. destruct (from_query_shape _ _ _ FQ) as (NX & DT & ET & _). unfold select_by_key in S. apply rbind_ok in S. destruct S as (it & S & IK). apply items_eq in IK. subst ks.
  destruct (matchable s) eqn:MT; [|apply matchable_spec in MT; rewrite (collect_hopeless _ _ _ _ _ _ _ _ MT S) in I'; destruct I'].
  apply matchable_true in MT. destruct (C24_walk_happens _ _ _ _ _ _ _ MT S) as (w & W). assert (U : usable s) by (intros Q; contradiction). destruct (C24_select_order _ _ _ _ _ _ _ _ U S W) as (m0 & CH & O).
  unfold item_keys in I'. apply in_flat_map in I'. destruct I' as (i & I' & E). assert (J : In i m0) by (destruct sp; [apply (once_sub _ _ _ _ O _ I')|subst it; exact I']). apply (chosen_in _ _ _ _ CH) in J. destruct J as (_ & A).
  apply (accepts_alone _ _ _ NX). apply (accepts_alone _ _ _ NX) in A. destruct (si_data i) as [x|y|x|y|x]; cbn [item_key] in E; try destruct E as [<-|[]]; try destruct E; exact A.
Qed.

(* ---------------------------------------------------------------- the criteria *)
Section Criteria.
Variables (d d' : document).
Hypothesis (RM : room d').
Definition both_same (e e' : elementdata) : Prop := same_attributes d d' e e' /\ same_references d d' e e'.
Lemma layer_no_class e e' k : reachable normal d' -> get_elementdata d' k = Some e' -> layer_read d' e e' -> r_class d' e' = Ok None.
Proof.
  intros R G L. destruct (reported _ _ _ R G) as (n & _ & _ & K2 & _ & _ & _ & _ & _ & V3 & _). rewrite V3.
  assert (X : r_class_key e' = Ok None); [|rewrite K2 in X; injection X as X; rewrite X; reflexivity].
  destruct L as [E|(dk & dec & E & _)]; unfold r_class_key, e_class_key; rewrite E; [|reflexivity].
  clear. induction (e_attribs e) as [|a l IH]; [reflexivity|]. destruct a; exact IH.
Qed.
(* the class is the same, for all but features *)
Lemma class_same k' e e' : reachable normal d' -> get_elementdata d' k' = Some e' -> both_same e e' -> e_type e <> ET_Feature -> (exists o, r_class d e = Ok o) -> r_class d' e' = r_class d e.
Proof.
  intros R G (SA & _) NF (o & C). destruct SA as [((_ & NM) & L)|(_ & _ & A & B & _)].
  - rewrite (layer_no_class e e' k' R G L). rewrite C. destruct o as [c|]; [|reflexivity]. destruct NM. right. left. eauto.
  - destruct (reported _ _ _ R G) as (n & _ & _ & _ & _ & _ & _ & _ & _ & V3 & _). destruct (r_class d' e') as [[c|]| | |] eqn:E; try discriminate V3.
    + rewrite (B NF c eq_refl). reflexivity.
    + rewrite C. destruct o as [c|]; [|reflexivity]. assert (X := A RM c (fun Q => False_ind _ (NF Q)) C). congruence.
Qed.
Lemma set_same e e' c : both_same e e' -> r_class d e = Ok (Some c) -> r_set d' e' = r_set d e.
Proof. intros (_ & SR) C. assert (M : marked_tag d e) by (right; left; eauto). destruct SR as [((_ & NM) & _)|[(NM & _)|(_ & _ & RS & _)]]; [contradiction|contradiction|exact RS]. Qed.
Lemma kept_satisfies q t k k' e e' : kept_query q t -> reachable normal d -> reachable normal d' -> get_elementdata d k = Some e -> get_elementdata d' k' = Some e' -> e_type e' = e_type e -> both_same e e' ->
  (satisfies d q e <-> satisfies d' q e').
Proof.
  intros (QT & NF & QB & QP & QS) R R' G G' TY BS.
  destruct (reported _ _ _ R G) as (n & _ & _ & _ & _ & _ & V0 & V1 & V2 & V3 & V4). destruct (reported _ _ _ R' G') as (n' & _ & _ & _ & _ & _ & V0' & V1' & V2' & V3' & V4').
  assert (SB : value_meets (q_subset q) (r_subset d e) /\ value_meets (q_subset q) (r_subset d' e')) by (rewrite QB; split; [rewrite V2|rewrite V2']; eexists; (split; [reflexivity|exact I])).
  assert (SP : value_meets (q_processor q) (r_processor d e) /\ value_meets (q_processor q) (r_processor d' e')) by (rewrite QP; split; [rewrite V4|rewrite V4']; eexists; (split; [reflexivity|exact I])).
  assert (TC : e_type e = t -> r_class d' e' = r_class d e) by (intros E; apply (class_same k'); [exact R'|exact G'|exact BS|congruence|rewrite V3; eauto]).
  assert (ST : e_type e = t -> (value_meets (q_class q) (r_class d e)) -> (value_meets (q_set q) (r_set d e) <-> value_meets (q_set q) (r_set d' e'))).
  { intros E C. destruct QS as [(Q & _)|((sn & _) & _ & CC)].
    - rewrite Q. split; intros _; [rewrite V1'|rewrite V1]; eexists; (split; [reflexivity|exact I]).
    - assert (X : exists c, r_class d e = Ok (Some c)). { destruct C as (v & A & B). destruct CC as [Q|(c & Q)]; rewrite Q in B; cbn [meets] in B; [destruct v as [c|]; [eauto|congruence]|subst v; eauto]. }
      destruct X as (c & X). rewrite (set_same e e' c BS X). reflexivity. }
  split; intros [S1 S2 S3 S4 S5 S6]; rewrite QT in S1; cbn [meets] in S1; injection S1 as S1.
  - constructor; [rewrite QT, TY, S1; reflexivity|rewrite TY; exact S2|apply (ST S1 S4), S3|rewrite (TC S1); exact S4|apply SP|apply SB].
  - rewrite TY in S1, S2. rewrite (TC S1) in S4. constructor; [rewrite QT, S1; reflexivity|exact S2|apply (ST S1 S4), S3|exact S4|apply SP|apply SB].
Qed.
Lemma kept_accepts q t s s' k k' e e' : kept_query q t -> reachable normal d -> reachable normal d' -> from_query d q = Ok s -> from_query d' q = Ok s' ->
  get_elementdata d k = Some e -> get_elementdata d' k' = Some e' -> e_type e' = e_type e -> both_same e e' -> (accepts d s (DElement k) <-> accepts d' s' (DElement k')).
Proof.
  intros KQ R R' FQ FQ' G G' TY BS.
  assert (A : forall x sx j y, reachable normal x -> from_query x q = Ok sx -> get_elementdata x j = Some y -> (accepts x sx (DElement j) <-> satisfies x q y)).
  { intros x sx j y RX F GY. pose proof KQ as (QT & NF & QB & QP & QS). destruct QS as [(Q & NC)|((sn & Q) & AT & _)].
    - destruct (from_query_shape _ _ _ F) as (NX & _ & ET & _).
      destruct (et_eqb_spec (e_type y) ET_Feature) as [FT|FT]; [|apply (C29_without_set_partial x q sx j y RX F Q NC GY); right; intros (B & _); contradiction].
      split; [|intros [S1 _ _ _ _ _]; rewrite QT in S1; cbn [meets] in S1; congruence].
      intros H. rewrite QT in ET. destruct (accepted_type x sx t (DElement j) NX ET (or_introl eq_refl) H) as (z & ze & Z & GZ & TZ). cbn [item_key] in Z. injection Z as ->. congruence.
    - destruct (et_annotationtype t) as [a|] eqn:E; [|congruence]. apply (C29_compiled_query_of_type_partial x q sx t a sn j y RX F Q QT E); [left; exact QB|exact GY]. }
  rewrite (A d s k e R FQ G), (A d' s' k' e' R' FQ' G'). apply (kept_satisfies q t k k'); assumption.
Qed.
Lemma kept_compiles x q t : kept_query q t -> exists s, from_query x q = Ok s.
Proof. intros (_ & _ & QB & _). unfold from_query. rewrite QB. cbn [rbind]. eauto. Qed.
End Criteria.
