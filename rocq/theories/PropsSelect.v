(* Properties C24-C28, C31, C33-C36, C60, C61: selections and ancestors *)
From Coq Require Import String List Bool Arith NArith Lia.
From Verif Require Import Base Types SpecTable Attrib Element Store Metadata Document Select DocOps Xml Parser History BaseFacts TypesFacts StoreFacts Spec
  InvFacts LinkFacts TreeFacts ForestFacts Examples PropsEncode PropsLinks SelSpec SelectFacts.
Import ListNotations.
Open Scope list_scope.

Lemma ror_ok a b : (exists x, a = Ok x) -> (exists y, b = Ok y) -> exists z, ror a b = Ok z.
Proof. intros (x & ->) (y & ->). destruct x; cbn; eauto. Qed.
Lemma rand_ok a b : (exists x, a = Ok x) -> (exists y, b = Ok y) -> exists z, rand a b = Ok z.
Proof. intros (x & ->) (y & ->). destruct x; cbn; eauto. Qed.
Lemma crit_ok {A} (eqb : A -> A -> bool) c acc : (exists v, acc = Ok v) -> exists b, crit eqb c acc = Ok b.
Proof. intros (v & ->). unfold crit. destruct (cmp_is_any c); cbn; eauto. Qed.
(* in documents made by normal use every item can be tested *)
Lemma matches_total d s x : reachable normal d -> exists b, matches s d x = Ok b.
Proof.
  intros R. induction s as [s IH] using selector_ind'. rewrite matches_eq.
  assert (T : exists b, this_matches s d x = Ok b).
  { unfold this_matches. destruct x as [t|k|t|k|e]; eauto; (destruct (negb _ && negb _); [eauto|]); (destruct (get_elementdata d k) as [e|] eqn:G; [|eauto]);
    destruct (C15_accessors_return d k e R G) as ((s1 & s2 & s3 & s4 & s5 & s6 & _ & _ & _ & _ & A5 & A6) & (k1 & k2 & k3 & k4 & B1 & B2 & B3 & B4) & _);
    repeat (apply rand_ok); eauto using crit_ok. }
  destruct (s_next s) as [n|]; [|exact T]. apply ror_ok; [exact T|]. apply IH. reflexivity.
Qed.
Lemma testable_normal d s w : reachable normal d -> testable d s w.
Proof. intros R i _. apply matches_total, R. Qed.

(* Selectors that are not known to be unmatchable, or that are for elements only and have no further alternative
   (as compiled from a query). What becomes of the others is part of C31. *)
Definition usable (s : selector) : Prop := hopeless_selector s -> s_next s = None /\ s_datatypes s = [DS_Elements].
Lemma hopeless_nothing d s k : hopeless_selector s -> forall x, item_key x = [k] -> ~ accepts_one d s x.
Proof.
  assert (B : forall A acc, ~ @meets_read A CUnmatchable acc) by (intros A acc [Q|(v & _ & [])]; discriminate).
  intros H x I Q. assert (E : exists e, meets_read (s_set s) (r_declaration_key e) /\ meets_read (s_class s) (r_class_key e) /\ meets_read (s_processor s) (r_processor_key e)).
  { destruct x as [t|j|t|j|e]; try discriminate I; destruct Q as (_ & e & _ & _ & _ & Q1 & _ & Q2 & Q3 & _); exists e; auto. }
  destruct E as (e & E1 & E2 & E3). unfold hopeless_selector, hopeless in H. destruct H as [H|[H|H]]; rewrite H in *; eapply B; eassumption.
Qed.
Lemma collect_hopeless fuel d s r inc sp key l : hopeless_selector s -> select_data_by_key fuel d key s r inc sp = Ok l -> l = [].
Proof.
  intros H Q. apply matchable_spec in H. unfold select_data_by_key in Q. destruct fuel; [discriminate|]. cbn in Q. unfold sel_step in Q. cbn in Q. rewrite H in Q. cbn in Q. congruence.
Qed.
Lemma run_init p key : matchable (sp_sel p) = true -> sp_inclusive p = false -> running p (sel_init key).
Proof. intros M I. right. auto. Qed.
Lemma init_represents key : represents [] (sel_init key).
Proof. intros k. unfold marked. cbn. split; [intros []|]. intros (_ & Q). destruct (k - 0); discriminate. Qed.
Lemma matchable_true s : matchable s = true <-> ~ hopeless_selector s.
Proof. rewrite <- matchable_spec. destruct (matchable s); split; congruence. Qed.

(* ================================================================ C24 *)
Theorem C24_walk_happens : forall fuel d key s r sp l, ~ hopeless_selector s -> select_data_by_key fuel d key s r false sp = Ok l -> exists w, walk d r 1 key w.
Proof.
  intros fuel d key s r sp l H Q. apply matchable_true in H. unfold select_data_by_key in Q.
  destruct (collect_sound fuel d (mkSP s r false sp) (sel_init key) [] l (run_init (mkSP s r false sp) key H eq_refl) (init_represents key) Q) as (w & R & _). exists w. apply rest_start, R.
Qed.
Print Assumptions C24_walk_happens.
Theorem C24_select_order : forall fuel d key s r sp l w, usable s ->
  select_data_by_key fuel d key s r false sp = Ok l -> walk d r 1 key w ->
  exists m, chosen (fun i => accepts d s (si_data i)) w m /\ if sp then once d [] m l else l = m.
Proof.
  intros fuel d key s r sp l w U Q W. destruct (matchable s) eqn:M.
  - unfold select_data_by_key in Q. destruct (collect_sound fuel d (mkSP s r false sp) (sel_init key) [] l (run_init (mkSP s r false sp) key M eq_refl) (init_represents key) Q) as (w' & R & O).
    apply rest_start in R. cbn in R. rewrite (proj1 (walk_det d r) _ _ _ W _ R). exact O.
  - apply matchable_spec in M. destruct (U M) as (NX & DT). rewrite (collect_hopeless _ _ _ _ _ _ _ _ M Q).
    assert (N : forall i, ~ accepts d s (si_data i)).
    { intros i (a & I & A). rewrite alternatives_eq, NX in I. destruct I as [<-|[]]. destruct (si_data i) as [t|k|t|k|e] eqn:E.
      - cbn in A. rewrite DT in A. destruct A as [A|[]]; discriminate.
      - eapply (hopeless_nothing d s k M (DElement k)); [reflexivity|exact A].
      - cbn in A. rewrite DT in A. destruct A as [A|[]]; discriminate.
      - eapply (hopeless_nothing d s k M (DSpanReference k)); [reflexivity|exact A].
      - exact A. }
    exists []. split; [|destruct sp; [constructor|reflexivity]]. clear - N. induction w as [|i w IH]; [constructor|]. apply chosen_drop; [apply N|exact IH].
Qed.
Print Assumptions C24_select_order.
(* all content of the sentence of the example, three levels deep *)
Example C24_nonvacuous : exists l w, usable sel_all_data /\ select_data_by_key fuel1 ex_doc 10 sel_all_data RAlways false true = Ok l /\ walk ex_doc RAlways 1 10 w /\
  map (fun i => (si_data i, si_parent i, si_cursor i, si_depth i)) l =
    [(DElement 3, 10, 0, 1); (DElement 1, 3, 0, 2); (DText "hello", 1, 0, 3); (DElement 2, 3, 1, 2); (DElement 16, 3, 2, 2);
     (DElement 6, 10, 1, 1); (DElement 4, 6, 0, 2); (DText "cruel", 4, 0, 3); (DElement 5, 6, 1, 2); (DSpanReference 15, 6, 2, 2);
     (DElement 9, 10, 2, 1); (DElement 7, 9, 0, 2); (DText "world", 7, 0, 3); (DElement 8, 9, 1, 2);
     (DElement 12, 10, 3, 1); (DElement 13, 15, 0, 3); (DElement 14, 15, 1, 3)]%string.
Proof.
  assert (N : ~ hopeless_selector sel_all_data) by (intros [Q|[Q|Q]]; discriminate).
  destruct (select_data_by_key fuel1 ex_doc 10 sel_all_data RAlways false true) as [l| | |] eqn:E; [|vm_compute in E; discriminate..].
  destruct (C24_walk_happens _ _ _ _ _ _ _ N E) as (w & W). exists l, w. split; [intros Q; contradiction|]. split; [reflexivity|]. split; [exact W|].
  vm_compute in E. injection E as <-. vm_compute. reflexivity.
Qed.

(* ================================================================ C25 *)
Lemma chosen_in {A} (P : A -> Prop) l m x : chosen P l m -> In x m <-> In x l /\ P x.
Proof.
  induction 1 as [|y l m Y _ IH|y l m Y _ IH]; cbn; [tauto| |]; rewrite IH.
  - split; [intros [<-|(I & Q)]; auto|intros ([<-|I] & Q); auto].
  - split; [intros (I & Q); auto|intros ([<-|I] & Q); [contradiction|auto]].
Qed.
Lemma chosen_keys P l m : chosen P l m -> NoDup (own_keys l) -> NoDup (own_keys m).
Proof.
  induction 1 as [|i l m Y C IH|i l m Y _ IH]; intros N; [exact N| |].
  - assert (E : forall q, own_keys (i :: q) = match si_data i with DElement k => [k] | _ => [] end ++ own_keys q) by reflexivity. rewrite E in *.
    destruct (si_data i) as [t|k|t|k|e]; try (apply IH, N). cbn in *. inversion N as [|? ? NI ND]; subst. constructor; [|apply IH, ND].
    rewrite own_keys_in in *. intros (j & J & D). apply NI. exists j. split; [|exact D]. apply (chosen_in _ _ _ j C) in J. apply J.
  - apply IH. change (own_keys (i :: l)) with (match si_data i with DElement k => [k] | _ => [] end ++ own_keys l) in N. destruct (si_data i); try exact N. inversion N; assumption.
Qed.
Lemma once_sub d seen m l : once d seen m l -> forall i, In i l -> In i m.
Proof. induction 1; cbn; intros j J; [exact J|destruct J; auto..|auto]. Qed.
Lemma once_nodup d seen m l : once d seen m l -> NoDup (own_keys m) -> NoDup (own_keys l).
Proof.
  assert (E : forall i q, own_keys (i :: q) = match si_data i with DElement k => [k] | _ => [] end ++ own_keys q) by reflexivity.
  assert (K : forall i seen m l, once d seen m l -> (NoDup (own_keys m) -> NoDup (own_keys l)) -> NoDup (own_keys (i :: m)) -> NoDup (own_keys (i :: l))).
  { intros i se m' l' O IH N. rewrite E in *. destruct (si_data i) as [t|k|t|k|e]; try (apply IH, N). cbn in *. inversion N as [|? ? NI ND]; subst. constructor; [|apply IH, ND].
    rewrite own_keys_in in *. intros (j & J & D). apply NI. exists j. split; [eapply once_sub; eassumption|exact D]. }
  induction 1 as [se|se i m l S O IH|se i k m l S N O IH|se i k m l S N O IH]; intros H; [exact H|eapply K; eassumption|eapply K; eassumption|].
  apply IH. rewrite E in H. destruct (si_data i); try exact H. inversion H; assumption.
Qed.
(* an item is left out only if its span has been reported *)
Lemma once_covers d seen m l : once d seen m l -> forall i, In i m -> In i l \/ exists k, span_of d (si_data i) = Some k /\ (In k seen \/ exists j, In j l /\ span_of d (si_data j) = Some k).
Proof.
  induction 1 as [se|se i m l S O IH|se i k m l S N O IH|se i k m l S N O IH]; intros j J; [destruct J| | |]; destruct J as [<-|J].
  - left. left. reflexivity.
  - destruct (IH j J) as [Q|(k & K & [Q|(x & X & Y)])]; [left; right; exact Q|right; eauto|right; exists k; split; [exact K|]; right; exists x; split; [right; exact X|exact Y]].
  - left. left. reflexivity.
  - destruct (IH j J) as [Q|(q & K & [[<-|Q]|(x & X & Y)])]; [left; right; exact Q| | |].
    + right. exists k. split; [exact K|]. right. exists i. split; [left; reflexivity|exact S].
    + right. exists q. split; [exact K|]. left. exact Q.
    + right. exists q. split; [exact K|]. right. exists x. split; [right; exact X|exact Y].
  - right. exists k. split; [exact S|]. left. exact N.
  - exact (IH j J).
Qed.
Lemma span_of_key d x k : span_of d x = Some k -> item_key x = [k].
Proof.
  destruct x as [t|j|t|j|e]; cbn [span_of item_key]; intros H; try discriminate; [|congruence]. destruct (get_elementdata d j) as [e|]; [|discriminate]. destruct (existsb _ _); congruence.
Qed.
Lemma item_keys_in l k : In k (item_keys l) <-> exists i, In i l /\ item_key (si_data i) = [k].
Proof.
  unfold item_keys. rewrite in_flat_map. split; intros (i & I & J); exists i; (split; [exact I|]).
  - destruct (si_data i); cbn in *; intuition congruence.
  - rewrite J. left. reflexivity.
Qed.
Theorem C25_select_complete : forall fuel d key s sp l, consistent d -> acyclic d -> get_elementdata d key <> None -> usable s ->
  select_data_by_key fuel d key s RAlways false sp = Ok l ->
  NoDup (own_keys l) /\
  (forall c, In c (own_keys l) -> ancestor d key c /\ accepts d s (DElement c)) /\
  (forall c, ancestor d key c -> accepts d s (DElement c) -> In c (item_keys l)) /\
  (sp = false -> forall c, ancestor d key c -> accepts d s (DElement c) -> In c (own_keys l)).
Proof.
  intros fuel d key s sp l C A K U Q. destruct (walk_exists d RAlways C A key K 1) as (w & W). destruct (C24_select_order _ _ _ _ _ _ _ _ U Q W) as (m & CH & O).
  destruct (walk_nodup d RAlways C A) as (WN & _). destruct (WN _ _ _ W) as (N1 & N2).
  assert (SUB : forall i, In i l -> In i m) by (destruct sp; [apply (once_sub _ _ _ _ O)|subst l; auto]).
  assert (IN : forall c, ancestor d key c -> accepts d s (DElement c) -> In c (own_keys m)).
  { intros c AN AC. destruct (anc_path d key c C AN) as (x & n & e & P & G & I). apply In_nth_error in I. destruct I as (j & J). apply own_keys_in.
    exists (mkItem (DElement c) x j (1 + n)). split; [|reflexivity]. apply (chosen_in _ _ _ _ CH). split; [|exact AC]. apply (proj1 (walk_items d RAlways) _ _ _ W). exists x, n, e. auto. }
  split; [|split; [|split]].
  - destruct sp; [eapply once_nodup; [exact O|]|subst l]; eapply chosen_keys; eassumption.
  - intros c I. apply own_keys_in in I. destruct I as (i & I & D). apply SUB in I. apply (chosen_in _ _ _ _ CH) in I. destruct I as (I & AC). rewrite D in AC. split; [|exact AC].
    apply N2. apply own_keys_in. eauto.
  - intros c AN AC. apply item_keys_in. specialize (IN c AN AC). apply own_keys_in in IN. destruct IN as (i & I & D). destruct sp.
    + destruct (once_covers _ _ _ _ O i I) as [J|(k & K1 & [[]|(j & J & K2)])]; [exists i; rewrite D; auto|]. exists j. split; [exact J|]. rewrite D in K1. apply span_of_key in K1. apply span_of_key in K2. cbn in K1. congruence.
    + subst l. exists i. rewrite D. auto.
  - intros -> c AN AC. subst l. auto.
Qed.
Print Assumptions C25_select_complete.
(* all words below the paragraph *)
Definition sel_words : selector := sel_element sel_elements (CIs ET_Word).
Example C25_nonvacuous : consistent ex_doc /\ acyclic ex_doc /\ usable sel_words /\ exists l, select_data_by_key fuel1 ex_doc 11 sel_words RAlways false true = Ok l /\ own_keys l = [3; 6; 9] /\
  ancestor ex_doc 11 6 /\ accepts ex_doc sel_words (DElement 6).
Proof.
  split; [apply C18_links_agree_partial, ex_tidy|]. split; [intros k; apply C21_forest_partial, ex_tidy|]. split; [intros [Q|[Q|Q]]; discriminate|].
  eexists. split; [vm_compute; reflexivity|]. split; [vm_compute; reflexivity|]. split.
  - eapply anc_up with (b := 10); [vm_compute; reflexivity|]. apply anc_parent. vm_compute. reflexivity.
  - apply (matches_spec _ _ _ true); vm_compute; reflexivity.
Qed.

(* ================================================================ C26 *)
Lemma root_item_ok d key : consistent d -> get_elementdata d key <> None -> exists x, root_item d key = Ok x.
Proof.
  intros C K. unfold root_item. destruct (get_elementdata d key) as [e|] eqn:G; [|congruence]. destruct (Nat.eqb_spec (match e_parent e with Some p => p | None => key end) key); [eauto|].
  destruct (e_parent e) as [p|] eqn:P; [|congruence]. assert (PO : parent_of d key = Some p) by (unfold parent_of; rewrite G; exact P).
  apply (listed_parent d p key C) in PO. assert (Q := PO). unfold children_of in Q. destruct (get_elementdata d p) as [pe|] eqn:GP; [|destruct Q].
  apply (child_in d p pe key GP) in PO. unfold e_index, e_data_at. destruct (position (is_elem key) (e_data pe)) as [i|] eqn:POS.
  - apply position_some in POS. destruct POS as (x & N & _). rewrite N. eauto.
  - exfalso. apply position_none with (x := DElement key) in POS; [|exact PO]. cbn in POS. rewrite Nat.eqb_refl in POS. discriminate.
Qed.
Theorem C26_select_terminates : forall d key s r inc sp, consistent d -> acyclic d -> get_elementdata d key <> None ->
  exists n, forall fuel, n <= fuel -> select_data_by_key fuel d key s r inc sp <> OutOfFuel.
Proof.
  intros d key s r inc sp C A K. destruct (walk_exists d r C A key K 1) as (w & W). apply rest_start in W. exists (2 * length w + 3). intros fuel L. unfold select_data_by_key.
  destruct (matchable s) eqn:M.
  2:{ destruct fuel; [lia|]. cbn. unfold sel_step. cbn. rewrite M. cbn. discriminate. }
  assert (T : forall f, 2 * length w + 1 < f -> sel_collect f d (mkSP s r false sp) (sel_init key) <> OutOfFuel).
  { intros f F. apply (collect_terminates d (mkSP s r false sp) w); [right; auto|exact W|exact F]. }
  destruct inc; [|apply T; lia]. destruct fuel as [|f]; [lia|]. rewrite (collect_inclusive d s r sp key f M).
  destruct (root_item_ok d key C K) as (x & ->). destruct x as [[item parent]|]; [|apply T; lia]. destruct (matches s d item) as [[|]| | |]; try discriminate; [|apply T; lia].
  assert (Q : sel_collect f d (mkSP s r false sp) (sel_init key) <> OutOfFuel) by (apply T; lia). destruct (sel_collect f d _ (sel_init key)); cbn; congruence.
Qed.
Print Assumptions C26_select_terminates.
(* in documents made with care it ends with a result, always the same *)
Theorem C26_select_returns : forall d key s r inc sp, tidy d -> get_elementdata d key <> None ->
  exists n l, forall fuel, n <= fuel -> select_data_by_key fuel d key s r inc sp = Ok l.
Proof.
  intros d key s r inc sp T K. pose proof (C18_links_agree_partial d T) as C. assert (A : acyclic d) by (intros k; apply C21_forest_partial, T). pose proof (tidy_reachable _ T) as R.
  destruct (walk_exists d r C A key K 1) as (w & W). apply rest_start in W. set (f := 2 * length w + 3).
  assert (H : exists l, select_data_by_key f d key s r inc sp = Ok l).
  { unfold select_data_by_key. destruct (matchable s) eqn:M.
    2:{ exists []. unfold f. rewrite Nat.add_comm. cbn. unfold sel_step. cbn. rewrite M. reflexivity. }
    assert (TT : forall n, 2 * length w + 1 < n -> exists l, sel_collect n d (mkSP s r false sp) (sel_init key) = Ok l).
    { intros n F. apply (collect_complete d (mkSP s r false sp) w (testable_normal d s w R)); [right; auto|exact W|exact F]. }
    destruct inc; [|apply TT; unfold f; lia]. replace f with (S (2 * length w + 2)) by (unfold f; lia). rewrite (collect_inclusive d s r sp key _ M).
    destruct (root_item_ok d key C K) as (x & ->). destruct x as [[item parent]|]; [|apply TT; lia]. destruct (matches_total d s item R) as (b & ->). destruct b; [|apply TT; lia].
    destruct (TT (2 * length w + 2)) as (l & ->); [lia|]. cbn. eauto. }
  destruct H as (l & H). exists f, l. intros fuel L. unfold select_data_by_key in *. rewrite (collect_mono d _ f); [exact H|rewrite H; discriminate|exact L].
Qed.
Print Assumptions C26_select_returns.
Example C26_nonvacuous : tidy ex_doc /\ get_elementdata ex_doc 0 <> None.
Proof. split; [exact ex_tidy|vm_compute; discriminate]. Qed.

(* ================================================================ C27 *)
(* the spans reported by a list of items *)
Definition spans (d : document) (l : list selectitem) : list nat := flat_map (fun i => match span_of d (si_data i) with Some k => [k] | None => [] end) l.
Lemma spans_in d l k : In k (spans d l) <-> exists i, In i l /\ span_of d (si_data i) = Some k.
Proof.
  unfold spans. rewrite in_flat_map. split; intros (i & I & J); exists i; (split; [exact I|]); destruct (span_of d (si_data i)) as [q|]; cbn in *; intuition congruence.
Qed.
Lemma once_spans d seen m l : once d seen m l -> NoDup (spans d l) /\ forall k, In k (spans d l) -> ~ In k seen.
Proof.
  induction 1 as [se|se i m l S O (IH1 & IH2)|se i k m l S N O (IH1 & IH2)|se i k m l S N O (IH1 & IH2)].
  - split; [constructor|intros k []].
  - unfold spans in *. cbn. rewrite S. cbn. auto.
  - unfold spans in *. cbn. rewrite S. cbn. split.
    + constructor; [|exact IH1]. intros Q. apply (IH2 k Q). left. reflexivity.
    + intros q [<-|Q]; [exact N|]. intros J. apply (IH2 q Q). right. exact J.
  - auto.
Qed.
Theorem C27_span_once : forall fuel d key s r l, usable s -> select_data_by_key fuel d key s r false true = Ok l ->
  NoDup (spans d l) /\
  forall w, walk d r 1 key w -> forall k, In k (spans d l) <-> exists i, In i w /\ span_of d (si_data i) = Some k /\ accepts d s (si_data i).
Proof.
  intros fuel d key s r l U Q. split.
  - destruct (matchable s) eqn:M.
    + apply matchable_true in M. destruct (C24_walk_happens _ _ _ _ _ _ _ M Q) as (w & W). destruct (C24_select_order _ _ _ _ _ _ _ _ U Q W) as (m & _ & O). eapply once_spans, O.
    + apply matchable_spec in M. rewrite (collect_hopeless _ _ _ _ _ _ _ _ M Q). constructor.
  - intros w W k. destruct (C24_select_order _ _ _ _ _ _ _ _ U Q W) as (m & CH & O). rewrite spans_in. split.
    + intros (i & I & S). apply (once_sub _ _ _ _ O) in I. apply (chosen_in _ _ _ _ CH) in I. destruct I as (I & A). eauto.
    + intros (i & I & S & A). assert (J : In i m) by (apply (chosen_in _ _ _ _ CH); auto). destruct (once_covers _ _ _ _ O i J) as [J'|(k' & S' & [[]|X])]; [eauto|]. rewrite S in S'. injection S' as <-. exact X.
Qed.
Print Assumptions C27_span_once.
(* the entity is referred to by two words and is in its layer: it is reported once, at the first word *)
Example C27_nonvacuous : let s := sel_element sel_elements (CIs ET_Entity) in usable s /\ exists l, select_data_by_key fuel1 ex_doc 10 s RAlways false true = Ok l /\
  map si_data l = [DSpanReference 15] /\
  exists l2, select_data_by_key fuel1 ex_doc 10 s RAlways false false = Ok l2 /\ map si_data l2 = [DSpanReference 15; DSpanReference 15; DElement 15].
Proof. split; [intros [Q|[Q|Q]]; discriminate|]. eexists. split; [vm_compute; reflexivity|]. split; [vm_compute; reflexivity|]. eexists. split; vm_compute; reflexivity. Qed.

(* ================================================================ C28 *)
(* what is reported: the accepted items of the elements that are reached by descending from the start element *)
Theorem C28_recursion_modes : forall fuel d key s r l, ~ hopeless_selector s -> select_data_by_key fuel d key s r false false = Ok l ->
  forall i, In i l <-> accepts d s (si_data i) /\ exists n e, path d r key (si_parent i) n /\ get_elementdata d (si_parent i) = Some e /\
    nth_error (e_data e) (si_cursor i) = Some (si_data i) /\ si_depth i = S n.
Proof.
  intros fuel d key s r l H Q i. destruct (C24_walk_happens _ _ _ _ _ _ _ H Q) as (w & W).
  assert (U : usable s) by (intros X; contradiction). destruct (C24_select_order _ _ _ _ _ _ _ _ U Q W) as (m & CH & ->).
  rewrite (chosen_in _ _ _ _ CH), (proj1 (walk_items d r) _ _ _ W). split.
  - intros ((x & n & e & P & G & N & <- & D) & A). split; [exact A|]. exists n, e. auto.
  - intros (A & n & e & P & G & N & D). split; [|exact A]. exists (si_parent i), n, e. auto.
Qed.
Print Assumptions C28_recursion_modes.
(* the paths of the four modes *)
Theorem C28_no_recursion : forall d key x n, path d RNo key x n <-> x = key /\ n = 0.
Proof. intros d key x n. split; [intros P; inversion P as [|? ? ? ? ? ? D]; subst; [auto|destruct D]|intros (-> & ->); constructor]. Qed.
Print Assumptions C28_no_recursion.
Theorem C28_always : forall d key x, consistent d -> (exists n, path d RAlways key x n) <-> x = key \/ ancestor d key x.
Proof.
  intros d key x C. split.
  - intros (n & P). destruct (path_asc _ _ _ _ _ C P) as [->|Q]; auto.
  - intros [->|A]; [exists 0; constructor|]. destruct (anc_path d key x C A) as (y & n & e & P & G & I). exists (S n). eapply path_snoc; eauto. exact Logic.I.
Qed.
Print Assumptions C28_always.
(* every element passed on the way is of an allowed type *)
Theorem C28_limited : forall d r key x n, (exists l, r = RLimitedTo l \/ r = RExceptFor l) -> path d r key x (S n) ->
  exists y e, path d r key y n /\ get_elementdata d y = Some e /\ In (DElement x) (e_data e) /\ descends r (e_type e).
Proof.
  intros d r key x n _. revert key. induction n as [|n IH]; intros key P; inversion P as [|? e c ? ? G D I P']; subst.
  - inversion P'; subst. exists key, e. split; [constructor|auto].
  - destruct (IH c P') as (y & e' & Q & Q'). exists y, e'. split; [econstructor; eassumption|exact Q'].
Qed.
Print Assumptions C28_limited.
Example C28_nonvacuous : exists l0 l1 l2,
  select_data_by_key fuel1 ex_doc 11 sel_elements RNo false false = Ok l0 /\ own_keys l0 = [10] /\
  select_data_by_key fuel1 ex_doc 11 sel_elements (RLimitedTo [AcceptElementType ET_Paragraph]) false false = Ok l1 /\ own_keys l1 = [10; 3; 6; 9; 12] /\
  select_data_by_key fuel1 ex_doc 11 sel_elements (RExceptFor [AcceptElementGroup EG_Layer; AcceptElementType ET_Word]) false false = Ok l2 /\ own_keys l2 = [10; 3; 1; 2; 16; 6; 4; 5; 9; 7; 8; 12; 15].
Proof. eexists _, _, _. split; [vm_compute; reflexivity|]. split; [vm_compute; reflexivity|]. split; [vm_compute; reflexivity|]. split; [vm_compute; reflexivity|]. split; vm_compute; reflexivity. Qed.

(* ================================================================ C31 *)
(* Partial: for a first selector that has no alternative yet and is not known to be unmatchable. Missing: longer chains
   built by calling and() again on the result, and an unmatchable first selector; see the refutations. *)
Theorem C31_and_union_partial : forall f1 f2 f3 d key a b r la lb lab, s_next a = None -> ~ hopeless_selector a -> usable b ->
  select_data_by_key f1 d key a r false false = Ok la -> select_data_by_key f2 d key b r false false = Ok lb ->
  select_data_by_key f3 d key (sel_and a b) r false false = Ok lab ->
  forall i, In i lab <-> In i la \/ In i lb.
Proof.
  intros f1 f2 f3 d key a b r la lb lab NX HA UB QA QB QAB i.
  destruct (C24_walk_happens _ _ _ _ _ _ _ HA QA) as (w & W). assert (UA : usable a) by (intros X; contradiction).
  assert (HAB : ~ hopeless_selector (sel_and a b)) by (intros X; apply HA; exact X). assert (UAB : usable (sel_and a b)) by (intros X; contradiction).
  destruct (C24_select_order _ _ _ _ _ _ _ _ UA QA W) as (m1 & C1 & ->). destruct (C24_select_order _ _ _ _ _ _ _ _ UB QB W) as (m2 & C2 & ->). destruct (C24_select_order _ _ _ _ _ _ _ _ UAB QAB W) as (m3 & C3 & ->).
  rewrite (chosen_in _ _ _ _ C1), (chosen_in _ _ _ _ C2), (chosen_in _ _ _ _ C3).
  assert (E : accepts d (sel_and a b) (si_data i) <-> accepts d a (si_data i) \/ accepts d b (si_data i)).
  { unfold accepts. rewrite (alternatives_eq a), NX. unfold sel_and. cbn [alternatives In]. split.
    - intros (s & [<-|I] & A); [left; exists a; split; [left; reflexivity|]; destruct (si_data i); exact A|right; eauto].
    - intros [(s & [<-|[]] & A)|(s & I & A)]; [eexists; split; [left; reflexivity|]; destruct (si_data i); exact A|exists s; auto]. }
  rewrite E. tauto.
Qed.
Print Assumptions C31_and_union_partial.
Definition sel_of (t : ElementType) : selector := sel_element sel_elements (CIs t).
Example C31_nonvacuous : s_next (sel_of ET_Word) = None /\ ~ hopeless_selector (sel_of ET_Word) /\ usable (sel_of ET_LemmaAnnotation) /\ exists l,
  select_data_by_key fuel1 ex_doc 10 (sel_and (sel_of ET_Word) (sel_of ET_LemmaAnnotation)) RAlways false false = Ok l /\ own_keys l = [3; 16; 6; 9].
Proof. split; [reflexivity|]. split; [intros [Q|[Q|Q]]; discriminate|]. split; [intros [Q|[Q|Q]]; discriminate|]. eexists. split; vm_compute; reflexivity. Qed.
(* and() on a selector that already has an alternative throws that alternative away *)
Theorem C31_and_chain_refuted : exists d key a b c lb labc i, tidy d /\ select_data_by_key fuel1 d key b RAlways false false = Ok lb /\ In i lb /\
  select_data_by_key fuel1 d key (sel_and (sel_and a b) c) RAlways false false = Ok labc /\ ~ In i labc.
Proof.
  exists ex_doc, 10, (sel_of ET_Word), (sel_of ET_LemmaAnnotation), (sel_of ET_Entity). eexists _, _, _. split; [exact ex_tidy|]. split; [vm_compute; reflexivity|].
  split; [left; reflexivity|]. split; [vm_compute; reflexivity|]. vm_compute. intuition discriminate.
Qed.
Print Assumptions C31_and_chain_refuted.
(* a first selector compiled from a query for an unknown set empties the whole union *)
Theorem C31_and_unmatchable_refuted : exists d key q a b lb lab, tidy d /\ from_query d q = Ok a /\ select_data_by_key fuel1 d key b RAlways false false = Ok lb /\ lb <> [] /\
  select_data_by_key fuel1 d key (sel_and a b) RAlways false false = Ok lab /\ lab = [].
Proof.
  exists ex_doc, 10, (qb_set (qb_element q_select (CIs ET_PosAnnotation)) (CIs "nosuchset"%string)). eexists. exists (sel_of ET_Word). eexists _, _. split; [exact ex_tidy|]. split; [vm_compute; reflexivity|].
  split; [vm_compute; reflexivity|]. split; [discriminate|]. split; vm_compute; reflexivity.
Qed.
Print Assumptions C31_and_unmatchable_refuted.

(* ================================================================ C33 *)
Theorem C33_get_element_is_first : forall fuel d key t set r l, get_elements fuel d key t set r = Ok l -> get_element fuel d key t set r = Ok (hd_error l).
Proof.
  intros fuel d key t set r l. unfold get_elements, get_element, select, select_by_key, select_first, select_data_by_key. intros H.
  apply rbind_ok in H. destruct H as (s & -> & H). cbn [rbind]. apply rbind_ok in H. destruct H as (it & H & K). eapply first_of_collect; eassumption.
Qed.
Print Assumptions C33_get_element_is_first.
Theorem C33_get_annotation_is_first : forall fuel d key t set r l, get_annotations fuel d key t set r = Ok l -> get_annotation fuel d key t set r = Ok (hd_error l).
Proof. intros fuel d key t set r l. apply C33_get_element_is_first. Qed.
Print Assumptions C33_get_annotation_is_first.
Theorem C33_get_feature_is_first : forall fuel d key subset l, get_features fuel d key subset = Ok l -> get_feature fuel d key subset = Ok (hd_error l).
Proof.
  intros fuel d key subset l. unfold get_features, get_feature, select, select_by_key, select_first, select_data_by_key. intros H. destruct (get_elementdata d key) as [e|]; [|injection H as <-; reflexivity].
  apply rbind_ok in H. destruct H as (st & -> & H). cbn [rbind]. apply rbind_ok in H. destruct H as (s & -> & H). cbn [rbind]. apply rbind_ok in H. destruct H as (it & H & K). eapply first_of_collect; eassumption.
Qed.
Print Assumptions C33_get_feature_is_first.
Lemma anc_first d s : forall fuel k l, ancestors fuel d s k = Ok l -> anc_next fuel d s k = Ok (hd_error l).
Proof.
  induction fuel as [|f IH]; intros k l H; [discriminate|]. cbn in *. destruct (get_elementdata d k) as [e|]; [|injection H as <-; reflexivity]. destruct (e_parent e) as [p|]; [|injection H as <-; reflexivity].
  destruct (matches s d (DElement p)) as [[|]| | |]; try discriminate; destruct (get_elementdata d p); try discriminate.
  - apply rbind_ok in H. destruct H as (l' & H & Q). injection Q as <-. reflexivity.
  - apply IH, H.
Qed.
Theorem C33_get_ancestor_is_first : forall fuel d key t set l, get_ancestors fuel d key t set = Ok l -> get_ancestor fuel d key t set = Ok (hd_error l).
Proof. intros fuel d key t set l. unfold get_ancestors, get_ancestor. intros H. apply rbind_ok in H. destruct H as (s & -> & H). apply anc_first, H. Qed.
Print Assumptions C33_get_ancestor_is_first.
Theorem C33_get_ancestor_by_group_is_first : forall fuel d key g set l, get_ancestors_by_group fuel d key g set = Ok l -> get_ancestor_by_group fuel d key g set = Ok (hd_error l).
Proof. intros fuel d key g set l. unfold get_ancestors_by_group, get_ancestor_by_group. intros H. apply rbind_ok in H. destruct H as (s & -> & H). apply anc_first, H. Qed.
Print Assumptions C33_get_ancestor_by_group_is_first.
Example C33_nonvacuous : get_elements fuel1 ex_doc 10 ET_Word CAny RAlways = Ok [3; 6; 9] /\ get_element fuel1 ex_doc 10 ET_Word CAny RAlways = Ok (Some 3) /\
  get_annotations fuel1 ex_doc 6 AT_POS (CIs "posset"%string) RNo = Ok [5] /\ get_annotations fuel1 ex_doc 6 AT_LEMMA CAny RNo = Ok [] /\ get_annotation fuel1 ex_doc 6 AT_LEMMA CAny RNo = Ok None /\
  get_ancestors fuel1 ex_doc 5 ET_Sentence CAny = Ok [10] /\ get_ancestors_by_group fuel1 ex_doc 5 EG_Structure CAny = Ok [6; 10; 11; 0].
Proof. vm_compute. auto 10. Qed.

(* ================================================================ C34 *)
Lemma chain_det d k l : chain d k l -> forall l', chain d k l' -> l = l'.
Proof. induction 1 as [k N|k p l P _ IH]; intros l' H; inversion H as [? N'|? p' l2 P' H']; subst; try congruence. rewrite P in P'. injection P' as <-. f_equal. apply IH, H'. Qed.
Lemma chain_in d k l : chain d k l -> forall a, In a l <-> ancestor d a k.
Proof.
  induction 1 as [k N|k p l P _ IH]; intros a; cbn; split.
  - intros [].
  - intros A. destruct (anc_inv _ _ _ A) as (p & Q & _). congruence.
  - intros [<-|I]; [apply anc_parent, P|]. eapply anc_up; [exact P|]. apply IH, I.
  - intros A. destruct (anc_inv _ _ _ A) as (q & Q & [->|B]); rewrite P in Q; injection Q as <-; [left; reflexivity|right; apply IH, B].
Qed.
Theorem C34_ancestors_are_the_chain : forall fuel d s k l, ancestors fuel d s k = Ok l -> exists ch, chain d k ch /\ chosen (fun a => accepts d s (DElement a)) ch l.
Proof.
  induction fuel as [|f IH]; intros d s k l H; [discriminate|]. cbn in H.
  assert (N : parent_of d k = None -> l = [] -> exists ch, chain d k ch /\ chosen (fun a => accepts d s (DElement a)) ch l) by (intros N ->; exists []; split; [apply chain_end, N|constructor]).
  destruct (get_elementdata d k) as [e|] eqn:G; [|apply N; [unfold parent_of; rewrite G; reflexivity|congruence]].
  assert (P : parent_of d k = e_parent e) by (unfold parent_of; rewrite G; reflexivity). destruct (e_parent e) as [p|]; [|apply N; [exact P|congruence]].
  destruct (matches s d (DElement p)) as [[|]| | |] eqn:M; try discriminate; apply matches_spec in M; destruct (get_elementdata d p); try discriminate.
  - apply rbind_ok in H. destruct H as (l' & H & Q). injection Q as <-. destruct (IH _ _ _ _ H) as (ch & C & O). exists (p :: ch). split; [eapply chain_up; eassumption|]. apply chosen_keep; [apply M; reflexivity|exact O].
  - destruct (IH _ _ _ _ H) as (ch & C & O). exists (p :: ch). split; [eapply chain_up; eassumption|]. apply chosen_drop; [intros A; apply M in A; discriminate|exact O].
Qed.
Print Assumptions C34_ancestors_are_the_chain.
Lemma chain_exists d : consistent d -> acyclic d -> forall k, exists l, chain d k l.
Proof.
  intros C A.
  assert (X : forall m below k, NoDup below -> (forall b, In b below -> asc d k b) -> In k below -> (forall b, In b below -> get_elementdata d b <> None) ->
     length (st_items (doc_elements d)) < length below + m -> exists l, chain d k l).
  { induction m as [|m IH]; intros below k ND AB IK ST L.
    - exfalso. assert (Q : length below <= length (seq 0 (length (st_items (doc_elements d))))).
      { apply NoDup_incl_length; [exact ND|]. intros a I. apply in_seq. specialize (ST a I). destruct (get_elementdata d a) eqn:G; [|congruence]. apply get_lt in G. lia. }
      rewrite seq_length in Q. lia.
    - destruct (parent_of d k) as [p|] eqn:P; [|exists []; apply chain_end, P]. destruct (IH (p :: below) p) as (l & H).
      + constructor; [|exact ND]. intros Q. destruct (AB p Q) as [->|Q']; [apply (A p); apply anc_parent, P|]. apply (A k). eapply anc_trans; [exact Q'|]. apply anc_parent, P.
      + intros b [<-|I]; [left; reflexivity|]. right. destruct (AB b I) as [->|Q]; [apply anc_parent, P|]. eapply anc_trans; [|exact Q]. apply anc_parent, P.
      + left. reflexivity.
      + intros b [<-|I]; [eapply parent_exists; eassumption|apply ST, I].
      + cbn. lia.
      + exists (p :: l). eapply chain_up; eassumption. }
  intros k. destruct (get_elementdata d k) as [e|] eqn:G.
  - apply (X (length (st_items (doc_elements d))) [k]); [constructor; [intros []|constructor]|intros b [<-|[]]; left; reflexivity|left; reflexivity|intros b [<-|[]]; congruence|cbn; lia].
  - exists []. apply chain_end. unfold parent_of. rewrite G. reflexivity.
Qed.
Theorem C34_ancestors_end : forall d s k, tidy d -> exists n l, forall fuel, n <= fuel -> ancestors fuel d s k = Ok l.
Proof.
  intros d s k T. pose proof (C18_links_agree_partial d T) as C. assert (A : acyclic d) by (intros j; apply C21_forest_partial, T). pose proof (tidy_reachable _ T) as R.
  destruct (chain_exists d C A k) as (ch & H). exists (S (length ch)). induction H as [k N|k p ch P _ IH].
  - exists []. intros [|f] L; [cbn in L; lia|]. cbn. unfold parent_of in N. destruct (get_elementdata d k) as [e|]; [|reflexivity]. cbn in N. rewrite N. reflexivity.
  - destruct IH as (l & IH). pose proof (parent_exists d p k C P) as EX. destruct (matches_total d s (DElement p) R) as (b & B). exists (if b then p :: l else l). intros [|f] L; [cbn in L; lia|]. cbn.
    unfold parent_of in P. destruct (get_elementdata d k) as [e|]; [|discriminate]. cbn in P. rewrite P, B. destruct (get_elementdata d p); [|congruence]. rewrite (IH f); [|cbn in L; lia]. destruct b; reflexivity.
Qed.
Print Assumptions C34_ancestors_end.
Example C34_nonvacuous : tidy ex_doc /\ ancestors fuel1 ex_doc sel_elements 5 = Ok [6; 10; 11; 0] /\ ancestors fuel1 ex_doc (sel_elementgroup sel_elements (CIs EG_Structure)) 5 = Ok [6; 10; 11; 0].
Proof. split; [exact ex_tidy|]. split; vm_compute; reflexivity. Qed.

(* ================================================================ C35 *)
Lemma accepts_elements d k : get_elementdata d k <> None -> accepts d sel_elements (DElement k).
Proof.
  intros H. exists sel_elements. split; [left; reflexivity|]. split; [right; left; reflexivity|]. destruct (get_elementdata d k) as [e|]; [|congruence]. exists e. split; [reflexivity|]. unfold meets_read. cbn. tauto.
Qed.
(* the matching common ancestors of all stored elements of a list, nearest to the first first *)
Definition common (d : document) (s : selector) (keys : list nat) (l : list nat) : Prop :=
  exists k0 rest ch, filter (fun k => match get_elementdata d k with Some _ => true | None => false end) keys = k0 :: rest /\ chain d k0 ch /\
    chosen (fun a => accepts d s (DElement a) /\ forall k, In k rest -> ancestor d a k) ch l.
Lemma keys_of_ok d l ks : reachable anything d -> keys_of d l = Ok ks -> ks = l.
Proof.
  intros R. pose proof (reachable_ok _ _ anything_ok R) as (((_ & K & _) & _) & _). revert ks. induction l as [|k l IH]; intros ks H; cbn in H; [congruence|].
  apply rbind_ok in H. destruct H as (x & X & H). apply rbind_ok in H. destruct H as (xs & XS & H). injection H as <-. rewrite (IH _ XS). unfold key_of in X. destruct (get_elementdata d k) as [e|] eqn:G; [|discriminate].
  rewrite (K k e G) in X. cbn in X. congruence.
Qed.
Lemma chosen_filter {A} (P Q : A -> Prop) (f : A -> bool) l m : (forall x, In x l -> P x -> (f x = true <-> Q x)) -> chosen P l m -> chosen (fun x => P x /\ Q x) l (filter f m).
Proof.
  intros F C. induction C as [|x l m X C IH|x l m X C IH]; [constructor| |].
  - cbn. destruct (f x) eqn:E.
    + apply chosen_keep; [split; [exact X|apply (F x (or_introl eq_refl) X), E]|]. apply IH. intros y Y. apply F. right. exact Y.
    + apply chosen_drop; [intros (_ & Y); apply (F x (or_introl eq_refl) X) in Y; congruence|]. apply IH. intros y Y. apply F. right. exact Y.
  - apply chosen_drop; [intros (Y & _); contradiction|]. apply IH. intros y Y. apply F. right. exact Y.
Qed.
Lemma chosen_ext {A} (P Q : A -> Prop) l m : (forall x, P x <-> Q x) -> chosen P l m -> chosen Q l m.
Proof. intros E C. induction C; [constructor|apply chosen_keep; [apply E; assumption|assumption]|apply chosen_drop; [rewrite <- E; assumption|assumption]]. Qed.
(* Partial: whenever the elements do have a common matching ancestor. Missing: when they have none the result should be
   empty; the code starts over when the intersection becomes empty, see the refutation. *)
Theorem C35_common_ancestors_partial : forall fuel d s keys l expected, reachable anything d -> common_ancestors fuel d s keys = Ok l -> common d s keys expected -> expected <> [] -> l = expected.
Proof.
  intros fuel d s keys l expected R H (k0 & rest & ch & F & CH & CO) NE. pose proof (reachable_ok _ _ anything_ok R) as (((_ & K & _) & _) & _).
  unfold common_ancestors in H.
  (* the ancestors of one element *)
  assert (ANC : forall k anc0 anc, ancestors fuel d s k = Ok anc0 -> keys_of d anc0 = Ok anc -> exists c, chain d k c /\ chosen (fun a => accepts d s (DElement a)) c anc).
  { intros k anc0 anc H1 H2. apply (keys_of_ok d _ _ R) in H2. subst anc0. apply C34_ancestors_are_the_chain in H1. exact H1. }
  (* continuing with a non-empty result *)
  assert (GO : forall keys rest P m l, rest = filter (fun k => match get_elementdata d k with Some _ => true | None => false end) keys ->
     chosen (fun a => accepts d s (DElement a) /\ P a) ch m -> (exists a, In a ch /\ accepts d s (DElement a) /\ P a /\ forall k, In k rest -> ancestor d a k) ->
     common_loop fuel d s m keys = Ok l -> chosen (fun a => accepts d s (DElement a) /\ (P a /\ forall k, In k rest -> ancestor d a k)) ch l).
  { clear - K ANC. induction keys as [|k keys IH]; intros rest P m l -> C (a & Ia & AC & PA & RA) H; cbn in H.
    - injection H as <-. eapply chosen_ext; [|exact C]. intros x. cbn. intuition.
    - cbn [filter] in *. destruct (get_elementdata d k) as [e|] eqn:G; [|eapply IH; [reflexivity|exact C|exists a; auto|exact H]].
      rewrite (K k e G) in H. cbn in H. apply rbind_ok in H. destruct H as (anc0 & A0 & H). apply rbind_ok in H. destruct H as (anc & A1 & H). destruct (ANC _ _ _ A0 A1) as (c & CC & CA).
      assert (Q : forall x, accepts d s (DElement x) -> mem_nat x anc = true <-> ancestor d x k).
      { intros x X. rewrite mem_nat_In, (chosen_in _ _ _ _ CA), (chain_in _ _ _ CC). tauto. }
      assert (MN : m <> []) by (intros ->; apply (proj2 (chosen_in _ _ _ a C)); auto).
      assert (C' : chosen (fun x => accepts d s (DElement x) /\ (P x /\ ancestor d x k)) ch (filter (fun x => mem_nat x anc) m)).
      { eapply chosen_ext; [|apply (chosen_filter _ (fun x => ancestor d x k) _ _ _ (fun x _ (Px : accepts d s (DElement x) /\ P x) => Q x (proj1 Px)) C)]. intros x. cbn. tauto. }
      assert (H' : common_loop fuel d s (filter (fun x => mem_nat x anc) m) keys = Ok l) by (destruct m; [congruence|exact H]).
      specialize (IH _ (fun x => P x /\ ancestor d x k) _ l eq_refl C'). eapply chosen_ext; [|apply IH; [|exact H']].
      + intros x. cbn. split; [intros (X1 & (X2 & X3) & X4)|intros (X1 & X2 & X3)]; repeat split; auto. intros y [<-|Y]; auto.
      + exists a. split; [exact Ia|]. split; [exact AC|]. split; [split; [exact PA|apply RA; left; reflexivity]|]. intros y Y. apply RA. right. exact Y. }
  (* up to the first stored element nothing happens *)
  revert H F. induction keys as [|k keys IH]; intros H F; [discriminate F|]. cbn in H, F. destruct (get_elementdata d k) as [e|] eqn:G; [|exact (IH H F)].
  injection F as -> F. rewrite (K k0 e G) in H. cbn in H. apply rbind_ok in H. destruct H as (anc0 & A0 & H). apply rbind_ok in H. destruct H as (anc & A1 & H).
  destruct (ANC _ _ _ A0 A1) as (c & CC & CA). rewrite (chain_det _ _ _ CC _ CH) in CA.
  assert (C0 : chosen (fun a => accepts d s (DElement a) /\ True) ch anc) by (eapply chosen_ext; [|exact CA]; intros x; cbn; tauto).
  assert (EX : exists a, In a ch /\ accepts d s (DElement a) /\ True /\ forall k, In k rest -> ancestor d a k).
  { destruct expected as [|a ex]; [congruence|]. exists a. destruct (proj1 (chosen_in _ _ _ a CO)) as (I1 & I2 & I3); [left; reflexivity|]. auto. }
  specialize (GO keys rest (fun _ => True) anc l (eq_sym F) C0 EX H).
  assert (DET : forall (P : nat -> Prop) x y z, chosen P x y -> chosen P x z -> y = z).
  { clear. intros P x y z C. revert z. induction C; intros z D; inversion D; subst; try contradiction; try reflexivity; [f_equal|]; auto. }
  eapply DET; [|exact CO]. eapply chosen_ext; [|exact GO]. intros x. cbn. tauto.
Qed.
Print Assumptions C35_common_ancestors_partial.
Example C35_nonvacuous : reachable anything ex_doc /\ common_ancestors fuel1 ex_doc sel_elements [5; 16; 9] = Ok [10; 11; 0] /\ common ex_doc sel_elements [5; 16; 9] [10; 11; 0].
Proof.
  split; [exact ex_reachable_any|]. split; [vm_compute; reflexivity|]. exists 5, [16; 9], [6; 10; 11; 0]. split; [vm_compute; reflexivity|].
  split; [repeat (eapply chain_up; [vm_compute; reflexivity|]); apply chain_end; vm_compute; reflexivity|].
  pose proof (accepts_elements ex_doc) as AC.
  assert (CH : forall k l a, chain ex_doc k l -> (ancestor ex_doc a k <-> In a l)) by (intros k l a H; symmetry; apply chain_in, H).
  assert (C16 : chain ex_doc 16 [3; 10; 11; 0]) by (repeat (eapply chain_up; [vm_compute; reflexivity|]); apply chain_end; vm_compute; reflexivity).
  assert (C9 : chain ex_doc 9 [10; 11; 0]) by (repeat (eapply chain_up; [vm_compute; reflexivity|]); apply chain_end; vm_compute; reflexivity).
  apply chosen_drop.
  { intros (_ & H). specialize (H 9 (or_intror (or_introl eq_refl))). rewrite (CH _ _ _ C9) in H. cbn in H. intuition discriminate. }
  repeat (apply chosen_keep; [split; [apply AC; vm_compute; discriminate|intros k [<-|[<-|[]]]; [apply (CH _ _ _ C16)|apply (CH _ _ _ C9)]; cbn; auto 10]|]). constructor.
Qed.
(* the body has no ancestors, so there is no common ancestor; the ancestors of the other element come out *)
Theorem C35_common_ancestors_refuted : exists d s keys l a k, tidy d /\ common_ancestors fuel1 d s keys = Ok l /\ In a l /\ In k keys /\ get_elementdata d k <> None /\ ~ ancestor d a k.
Proof.
  exists ex_doc, sel_elements, [0; 5]. eexists. exists 6, 0. split; [exact ex_tidy|]. split; [vm_compute; reflexivity|]. split; [left; reflexivity|]. split; [left; reflexivity|]. split; [vm_compute; discriminate|].
  intros A. destruct (anc_inv _ _ _ A) as (p & P & _). vm_compute in P. discriminate.
Qed.
Print Assumptions C35_common_ancestors_refuted.

(* ================================================================ C36 *)
Theorem C36_duality : forall fa fs d a x la lx, consistent d -> acyclic d -> get_elementdata d a <> None ->
  ancestors fa d sel_elements x = Ok la -> select_data_by_key fs d a sel_elements RAlways false false = Ok lx ->
  (In a la <-> In x (own_keys lx)).
Proof.
  intros fa fs d a x la lx C A K HA HS. destruct (C34_ancestors_are_the_chain _ _ _ _ _ HA) as (ch & CH & CO). assert (U : usable sel_elements) by (intros [Q|[Q|Q]]; discriminate).
  destruct (C25_select_complete _ _ _ _ _ _ C A K U HS) as (_ & S1 & _ & S2). specialize (S2 eq_refl).
  pose proof (accepts_elements d) as AC.
  rewrite (chosen_in _ _ _ _ CO), (chain_in _ _ _ CH). split.
  - intros (AN & _). apply S2; [exact AN|]. apply AC. destruct (anc_inv _ _ _ AN) as (p & P & _). unfold parent_of in P. destruct (get_elementdata d x); [discriminate|discriminate P].
  - intros I. destruct (S1 x I) as (AN & _). auto.
Qed.
Print Assumptions C36_duality.
Example C36_nonvacuous : consistent ex_doc /\ acyclic ex_doc /\ exists la lx, ancestors fuel1 ex_doc sel_elements 5 = Ok la /\
  select_data_by_key fuel1 ex_doc 10 sel_elements RAlways false false = Ok lx /\ In 10 la /\ In 5 (own_keys lx).
Proof.
  split; [apply C18_links_agree_partial, ex_tidy|]. split; [intros k; apply C21_forest_partial, ex_tidy|]. eexists _, _. split; [vm_compute; reflexivity|]. split; [vm_compute; reflexivity|]. split; vm_compute; auto 10.
Qed.

(* ================================================================ C60 *)
(* Partial: for elements with a parent and for the body. Missing: other elements without a parent, see the refutation. *)
Theorem C60_inclusive_partial : forall fuel d key s r sp l e, consistent d -> acyclic d -> get_elementdata d key = Some e -> (e_parent e <> None \/ key = 0) -> ~ hopeless_selector s ->
  select_data_by_key fuel d key s r true sp = Ok l ->
  exists fuel' l', select_data_by_key fuel' d key s r false sp = Ok l' /\
    ((accepts d s (DElement key) /\ l = mkItem (DElement key) (match e_parent e with Some p => p | None => key end) 0 0 :: l') \/ (~ accepts d s (DElement key) /\ l = l')).
Proof.
  intros fuel d key s r sp l e C A G P H Q. apply matchable_true in H. unfold select_data_by_key in *. destruct fuel as [|f]; [discriminate|]. rewrite (collect_inclusive d s r sp key f H) in Q.
  assert (RI : root_item d key = Ok (Some (DElement key, match e_parent e with Some p => p | None => key end))).
  { unfold root_item. rewrite G. destruct (e_parent e) as [p|] eqn:EP.
    - assert (PO : parent_of d key = Some p) by (unfold parent_of; rewrite G; exact EP). destruct (Nat.eqb_spec p key) as [->|NE]; [exfalso; apply (A key); apply anc_parent, PO|].
      assert (LI := PO). apply (listed_parent d p key C) in LI. assert (LI2 := LI). unfold children_of in LI2. destruct (get_elementdata d p) as [pe|] eqn:GP; [|destruct LI2].
      apply (child_in d p pe key GP) in LI. unfold e_index, e_data_at. destruct (position (is_elem key) (e_data pe)) as [i|] eqn:POS.
      + apply position_some in POS. destruct POS as (x & N & IE & _). rewrite N. destruct x; try discriminate IE. cbn in IE. apply Nat.eqb_eq in IE. subst. reflexivity.
      + exfalso. apply position_none with (x := DElement key) in POS; [|exact LI]. cbn in POS. rewrite Nat.eqb_refl in POS. discriminate.
    - destruct P as [P|P]; [congruence|]. subst key. reflexivity. }
  rewrite RI in Q. destruct (matches s d (DElement key)) as [[|]| | |] eqn:M; try discriminate; apply matches_spec in M.
  - apply rbind_ok in Q. destruct Q as (l' & Q & E). injection E as <-. exists f, l'. split; [exact Q|]. left. split; [apply M; reflexivity|reflexivity].
  - exists (S f), l. split; [exact Q|]. right. split; [|reflexivity]. intros X. apply M in X. discriminate.
Qed.
Print Assumptions C60_inclusive_partial.
Example C60_nonvacuous : consistent ex_doc /\ acyclic ex_doc /\ exists e l, get_elementdata ex_doc 10 = Some e /\ e_parent e = Some 11 /\
  select_data_by_key fuel1 ex_doc 10 sel_elements RNo true true = Ok l /\ own_keys l = [10; 3; 6; 9; 12].
Proof.
  split; [apply C18_links_agree_partial, ex_tidy|]. split; [intros k; apply C21_forest_partial, ex_tidy|]. eexists _, _. split; [vm_compute; reflexivity|]. split; [reflexivity|]. split; vm_compute; reflexivity.
Qed.
(* a detached sentence: the inclusive selection starts with the body instead *)
Theorem C60_inclusive_refuted : exists d d' key l, tidy d /\ detach_element d key = (d', Ok tt) /\ select_data_by_key fuel1 d' key sel_elements RNo true true = Ok l /\
  ~ In key (own_keys l) /\ hd_error (map si_data l) = Some (DElement 0).
Proof.
  exists ex_doc. eexists. exists 10. eexists. split; [exact ex_tidy|]. split; [vm_compute; reflexivity|]. split; [vm_compute; reflexivity|]. split; [vm_compute; intuition discriminate|vm_compute; reflexivity].
Qed.
Print Assumptions C60_inclusive_refuted.

(* ================================================================ C61 *)
(* Partial: unless the selector is known to be unmatchable and has an alternative; see the refutation. *)
Theorem C61_stays_finished_partial : forall f1 f2 d p st st1 st2 r, usable (sp_sel p) -> sel_next f1 d p st = Ok (None, st1) -> sel_next f2 d p st1 = Ok (r, st2) -> r = None.
Proof.
  intros f1 f2 d p st st1 st2 r U H1 H2.
  assert (X : 1 <= ss_iteration st1 /\ (ss_stack st1 = [] \/ hopeless_selector (sp_sel p))).
  { clear H2. revert st H1. induction f1 as [|f IH]; intros st H; [discriminate|]. cbn in H. destruct (sel_step d p st) as [i s|s|s|] eqn:E; try discriminate; [apply (IH s H)|].
    injection H as <-. unfold sel_step in E. cbn [ss_iteration ss_stack] in E.
    assert (AD : forall a, 1 <= ss_iteration a -> sel_advance d p a = Stop s -> 1 <= ss_iteration s /\ (ss_stack s = [] \/ hopeless_selector (sp_sel p))).
    { intros a L Q. pose proof (advance_spec _ _ _ _ Q) as (-> & Y). auto. }
    destruct (Nat.eqb _ 1 && negb (matchable (sp_sel p))) eqn:F.
    - injection E as <-. split; [cbn; lia|]. right. apply andb_true_iff in F. destruct F as (_ & F). apply negb_true_iff, matchable_spec in F. exact F.
    - destruct (sp_inclusive p && _); [|refine (AD _ _ E); cbn; lia]. destruct (ss_stack st) as [|[k c] rest]; [refine (AD _ _ E); cbn; lia|].
      destruct (root_item d k) as [[[item parent]|]| | |]; try discriminate; [|refine (AD _ _ E); cbn; lia].
      destruct (matches (sp_sel p) d item) as [[|]| | |]; try discriminate. refine (AD _ _ E); cbn; lia. }
  clear H1. destruct X as (L & [E|H]).
  - destruct f2 as [|f]; [discriminate|]. cbn in H2. unfold sel_step in H2. cbn [ss_iteration ss_stack] in H2. destruct (ss_iteration st1) as [|n]; [lia|]. cbn [Nat.eqb andb] in H2. rewrite andb_false_r in H2.
    unfold sel_advance in H2. cbn [ss_stack] in H2. rewrite E in H2. congruence.
  - assert (NO : forall x, matches (sp_sel p) d x <> Ok true).
    { intros x M. apply matches_spec in M. destruct (proj1 M eq_refl) as (s & I & AC). destruct (U H) as (NX & DT). rewrite alternatives_eq, NX in I. destruct I as [<-|[]].
      destruct x as [t|k|t|k|e]; [|eapply hopeless_nothing; [exact H| |exact AC]; reflexivity| |eapply hopeless_nothing; [exact H| |exact AC]; reflexivity|exact AC];
        cbn [accepts_one] in AC; rewrite DT in AC; destruct AC as [I|[]]; discriminate. }
    revert st1 L H2. induction f2 as [|f IH]; intros st1 L H2; [discriminate|]. cbn in H2. destruct (sel_step d p st1) as [i s|s|s|] eqn:E; try discriminate; [| |congruence].
    + exfalso. unfold sel_step in E. cbn [ss_iteration ss_stack] in E. destruct (ss_iteration st1) as [|n]; [lia|]. cbn [Nat.eqb andb] in E. rewrite andb_false_r in E. unfold sel_advance in E. cbn [ss_stack] in E.
      destruct (ss_stack st1) as [|[k c] rest]; [discriminate|]. destruct (get_elementdata d k); [|discriminate]. destruct (e_data_at _ c) as [x|]; [|discriminate]. specialize (NO x).
      destruct (matches (sp_sel p) d x) as [[|]| | |]; try discriminate. congruence.
    + apply (IH s); [|exact H2]. unfold sel_step in E. cbn [ss_iteration ss_stack] in E. destruct (ss_iteration st1) as [|n]; [lia|]. cbn [Nat.eqb andb] in E. rewrite andb_false_r in E. unfold sel_advance in E. cbn [ss_stack] in E.
      destruct (ss_stack st1) as [|[k c] rest]; [discriminate|]. destruct (get_elementdata d k); [|discriminate]. destruct (e_data_at _ c) as [x|]; [|injection E as <-; cbn; lia]. specialize (NO x).
      destruct (matches (sp_sel p) d x) as [[|]| | |]; try discriminate; try congruence. injection E as <-. cbn. lia.
Qed.
Print Assumptions C61_stays_finished_partial.
Example C61_nonvacuous : usable (sel_of ET_Sentence) /\ exists st1 st2 st3 i, sel_next fuel1 ex_doc (mkSP (sel_of ET_Sentence) RAlways false true) (sel_init 11) = Ok (Some i, st1) /\ sel_next fuel1 ex_doc (mkSP (sel_of ET_Sentence) RAlways false true) st1 = Ok (None, st2) /\ sel_next fuel1 ex_doc (mkSP (sel_of ET_Sentence) RAlways false true) st2 = Ok (None, st3).
Proof. split; [intros [Q|[Q|Q]]; discriminate|]. eexists _, _, _, _. split; [vm_compute; reflexivity|]. split; [vm_compute; reflexivity|]. vm_compute; reflexivity. Qed.
(* an unmatchable selector with an alternative: None first, items afterwards *)
Theorem C61_stays_finished_refuted : exists d q a p st1 st2 i, tidy d /\ from_query d q = Ok a /\ p = mkSP (sel_and a (sel_of ET_Word)) RAlways false true /\ sel_next fuel1 d p (sel_init 10) = Ok (None, st1) /\ sel_next fuel1 d p st1 = Ok (Some i, st2).
Proof.
  exists ex_doc, (qb_set (qb_element q_select (CIs ET_PosAnnotation)) (CIs "nosuchset"%string)). eexists _, _, _, _, _. split; [exact ex_tidy|]. split; [vm_compute; reflexivity|]. split; [reflexivity|]. split; [vm_compute; reflexivity|]. vm_compute; reflexivity.
Qed.
Print Assumptions C61_stays_finished_refuted.
