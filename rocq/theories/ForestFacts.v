(* Careful use keeps the document a forest; documents made with care are reachable in the sense of History.v. *)
From Coq Require Import String List Bool Arith NArith Lia.
From Verif Require Import Base BaseFacts Types TypesFacts SpecTable Attrib AttribFacts Element Store StoreFacts Metadata Document Select DocOps Xml Parser History Spec FrameFacts InvFacts DocFacts StoreThms EncodeFacts LinkFacts TreeFacts.
Import ListNotations.
Open Scope list_scope.

(* ---------------------------------------------------------------- operations that do not touch the elements *)
Lemma bind_elements {A B} d (r : document * res A) (f : document -> A -> document * res B) :
  doc_elements (fst r) = doc_elements d -> (forall d1 a, r = (d1, Ok a) -> doc_elements (fst (f d1 a)) = doc_elements d1) ->
  doc_elements (fst (sbind r f)) = doc_elements d.
Proof. destruct r as [d1 [a| | |]]; cbn; intros E H; try exact E. rewrite (H _ _ eq_refl). exact E. Qed.
Lemma map_err_fst {A} e (r : document * res A) : fst (map_err e r) = fst r.
Proof. destruct r as [d [a| | |]]; reflexivity. Qed.
Lemma forget_fst {A} (r : document * res A) : fst (forget r) = fst r.
Proof. destruct r as [d [a| | |]]; reflexivity. Qed.
Lemma add_declaration_elements d x : doc_elements (fst (add_declaration d x)) = doc_elements d.
Proof. rewrite add_declaration_fst. reflexivity. Qed.
Lemma add_provenance_elements d x : doc_elements (fst (add_provenance d x)) = doc_elements d.
Proof. rewrite add_provenance_fst. reflexivity. Qed.
Lemma doc_add_class_elements d dk c : doc_elements (fst (doc_add_class d dk c)) = doc_elements d.
Proof. unfold doc_add_class. destruct (get_declaration d dk); [|reflexivity]. destruct (d_add_class d0 c); reflexivity. Qed.
Lemma upd_processor_elements d k f : doc_elements (upd_processor d k f) = doc_elements d.
Proof. unfold upd_processor. destruct (get_processor d k); reflexivity. Qed.
Lemma upd_declaration_elements d k f : doc_elements (upd_declaration d k f) = doc_elements d.
Proof. unfold upd_declaration. destruct (get_declaration d k); reflexivity. Qed.
Lemma attach_processor_elements d p c : doc_elements (fst (attach_processor d p c)) = doc_elements d.
Proof.
  unfold attach_processor. destruct (get_processor d p); [|reflexivity]. destruct (get_processor d c); [|reflexivity].
  cbn [fst]. rewrite !upd_processor_elements. reflexivity.
Qed.
Lemma add_subprocessor_elements p : forall d parent, doc_elements (fst (add_subprocessor d parent p)) = doc_elements d.
Proof.
  induction p as [p IH] using proc_ind. intros d parent. rewrite add_subprocessor_eq.
  apply bind_elements; [apply add_provenance_elements|]. intros d1 c _. apply bind_elements; [apply attach_processor_elements|]. intros d2 _ _.
  apply bind_elements; [|reflexivity]. revert d2. induction IH as [|q l Hq Hl IHl]; intros d2; cbn; [reflexivity|].
  apply bind_elements; [apply Hq|]. intros; apply IHl.
Qed.
Lemma add_subprocessors_elements l : forall d parent, doc_elements (fst (add_subprocessors d parent l)) = doc_elements d.
Proof. induction l as [|q l IH]; intros d parent; cbn; [reflexivity|]. apply bind_elements; [apply add_subprocessor_elements|]. intros; apply IH. Qed.
Lemma add_processor_elements d p : doc_elements (fst (add_processor d p)) = doc_elements d.
Proof.
  unfold add_processor. apply bind_elements; [apply add_provenance_elements|]. intros d1 c _.
  change (doc_elements d1) with (doc_elements (doc_with_chain d1 (doc_chain d1 ++ [c]))). apply bind_elements; [apply add_subprocessors_elements|]. reflexivity.
Qed.
Lemma apply_declares_elements l : forall d, doc_elements (fst (apply_declares d l)) = doc_elements d.
Proof.
  induction l as [|[t set] l IH]; intros d; cbn; [reflexivity|]. apply bind_elements; [apply declare_elements|]. intros d1 dk _.
  apply bind_elements; [|intros; apply IH]. destruct set as [s|]; [|reflexivity]. destruct (String.eqb s DEFAULT_TEXT_SET); [|reflexivity].
  apply bind_elements; [apply doc_add_class_elements|]. reflexivity.
Qed.
Lemma apply_properties_elements d p : doc_elements (fst (apply_properties d p)) = doc_elements d.
Proof.
  unfold apply_properties. apply bind_elements; [|intros; apply apply_declares_elements]. destruct (dp_processor p); [|reflexivity].
  apply bind_elements; [apply add_processor_elements|]. reflexivity.
Qed.
Lemma activate_elements d k : doc_elements (activate_processor d k) = doc_elements d.
Proof. reflexivity. Qed.

(* ---------------------------------------------------------------- single steps *)
Definition grown (d d' : document) : Prop := forall j, sh d j <> None -> sh d' j <> None /\ spar (sh d') j = spar (sh d) j.
Lemma grown_refl d : grown d d.
Proof. intros j J. auto. Qed.
Lemma grown_trans a b c : grown a b -> grown b c -> grown a c.
Proof. intros H K j J. destruct (H j J) as (X & Y). destruct (K j X) as (Z & W). split; [exact Z|congruence]. Qed.
Lemma same_grown d d' : same_sh d d' -> grown d d'.
Proof. intros (S & _) j J. unfold spar. rewrite S. auto. Qed.

Lemma forest_store d e ctx d1 k : forest d -> new_id d e -> e_parent e = None -> (forall x, ~ In (DAddElement x) (e_data e)) -> child_keys (e_data e) = [] ->
  store_add d e ctx = (d1, Ok k) ->
  k = sh_len d /\ sh_len d1 = S (sh_len d) /\ forest d1 /\ (forall j, sh d1 j = if Nat.eqb j k then Some (shape_of e) else sh d j) /\
  st_index (doc_elements d1) = match e_id e with Some id => smap_insert id k (st_index (doc_elements d)) | None => st_index (doc_elements d) end.
Proof.
  intros F N P NA CK H. destruct (store_link 0 d e ctx d1 k d1 [] N P) as (A & B & C & D & E); auto.
  - intros x I. apply (NA x). unfold content in I. apply filter_In in I. tauto.
  - constructor.
  - intros c [].
Qed.
Lemma store_grown d1 d k s : (forall j, sh d1 j = if Nat.eqb j k then Some s else sh d j) -> sh d k = None -> grown d d1.
Proof. intros H N j J. unfold spar. rewrite H. destruct (Nat.eqb_spec j k) as [->|]; [congruence|]. auto. Qed.
Lemma old_not_above d d1 k : forest d -> (forall j, j < sh_len d -> sh d1 j = sh d j) -> sh_len d <= k -> forall y, above (sh d1) k y -> y < sh_len d -> False.
Proof.
  intros [(L1 & L2) _ _ _] O K y Y. induction Y as [|x b Q AB IH]; intros J; [lia|].
  unfold spar in Q. rewrite O in Q by exact J. apply IH.
  assert (C1 : In x (skids (sh d) b)). { apply (count_occ_In Nat.eq_dec). rewrite L1. unfold spar. rewrite Q. cbn. rewrite Nat.eqb_refl. cbn. lia. }
  unfold skids in C1. destruct (sh d b) as [sb|] eqn:GB; [|destruct C1]. apply sh_lt in GB. exact GB.
Qed.
Lemma forest_moved d d' c np : forest d -> sh d c <> None -> (forall p, np = Some p -> sh d p <> None /\ ~ above (sh d) c p) ->
  (forall k, sh d' k = move (sh d) c np k) -> sh_len d' = sh_len d -> forest d'.
Proof.
  intros [LK AC DE BO] XC NP SD LD. split.
  - eapply linked_move; [exact SD|exact LK|exact XC|]. intros p P. apply NP, P.
  - eapply acyc_move; [exact SD| |exact AC]. intros p P. apply NP, P.
  - intros j J. rewrite LD in J. rewrite SD. unfold move. specialize (DE j J). destruct (sh d j); [discriminate|congruence].
  - intros j s x0. rewrite SD. unfold move. destruct (sh d j) as [s'|] eqn:Q; [|discriminate]. cbn. intros H. inversion H; subst. cbn.
    rewrite in_app_iff. intros [I|I]; [unfold unlist_all in I; apply filter_In in I; eapply BO; [exact Q|apply I]|]. destruct (opt_nat_eqb np (Some j)); [|destruct I]. destruct I as [I|[]]. discriminate.
Qed.
Lemma forest_attach d p c d' : forest d -> ~ above (sh d) c p -> attach_element d p c = (d', Ok tt) ->
  forest d' /\ (forall j, sh d' j = move (sh d) c (Some p) j) /\ sh_len d' = sh_len d /\ st_index (doc_elements d') = st_index (doc_elements d).
Proof.
  intros F NA H. destruct (attach_get _ _ _ _ (f_linked _ F) H) as ((pe & GP) & (ce & GC) & G & LD & ID). pose proof (moved_sh _ _ _ _ G) as SD.
  split; [|auto]. eapply forest_moved; [exact F| | |exact SD|exact LD]; [unfold sh; rewrite GC; discriminate|].
  intros q Q. inversion Q; subst. split; [unfold sh; rewrite GP; discriminate|exact NA].
Qed.
Lemma forest_detach d c d' : forest d -> detach_element d c = (d', Ok tt) ->
  forest d' /\ (forall j, sh d' j = move (sh d) c None j) /\ sh_len d' = sh_len d /\ st_index (doc_elements d') = st_index (doc_elements d).
Proof.
  intros F H. destruct (detach_get _ _ _ (f_linked _ F) H) as ((ce & GC) & G & LD & ID). pose proof (moved_sh _ _ _ _ G) as SD.
  split; [|auto]. eapply forest_moved; [exact F| | |exact SD|exact LD]; [unfold sh; rewrite GC; discriminate|]. discriminate.
Qed.
Lemma moved_spar m c np j : m c <> None -> spar (move m c np) j = if Nat.eqb j c then np else spar m j.
Proof. intros X. unfold spar, move. destruct (m j) eqn:G; cbn; [reflexivity|]. destruct (Nat.eqb_spec j c) as [->|]; [congruence|reflexivity]. Qed.
Lemma attach_exists d p c d' : attach_element d p c = (d', Ok tt) -> sh d p <> None /\ sh d c <> None.
Proof.
  unfold attach_element, sh. destruct (get_elementdata d p); [|discriminate]. destruct (get_elementdata d c); [|discriminate]. split; discriminate.
Qed.
Lemma forest_push d k x : forest d -> is_add x = false -> (forall c, x <> DElement c) -> forest (upd_element d k (fun e => e_push e x)) /\
  grown d (upd_element d k (fun e => e_push e x)).
Proof.
  intros [LK AC DE BO] NA NE. set (d' := upd_element d k (fun e => e_push e x)).
  assert (S : forall j, sh d' j = if Nat.eqb j k then option_map (fun e => shape_of (e_push e x)) (get_elementdata d k) else sh d j) by (intros j; apply sh_upd).
  assert (P : forall j, spar (sh d') j = spar (sh d) j).
  { intros j. unfold spar. rewrite S. destruct (Nat.eqb_spec j k) as [->|]; [|reflexivity]. unfold sh. destruct (get_elementdata d k); reflexivity. }
  assert (K : forall j, skids (sh d') j = skids (sh d) j).
  { intros j. unfold skids. rewrite S. destruct (Nat.eqb_spec j k) as [->|]; [|reflexivity]. unfold sh. destruct (get_elementdata d k) as [e|]; [|reflexivity]. cbn.
    unfold content. rewrite !child_keys_content. cbn. rewrite child_keys_app. destruct x; try (cbn; rewrite app_nil_r; reflexivity). destruct (NE k0 eq_refl). }
  assert (X : forall j, sh d' j = None <-> sh d j = None).
  { intros j. rewrite S. destruct (Nat.eqb_spec j k) as [->|]; [|tauto]. unfold sh. destruct (get_elementdata d k); cbn; split; congruence. }
  split; [split|].
  - destruct LK as (A & B). split; [intros p c; rewrite K, P; apply A|]. intros p c. rewrite K, X. apply B.
  - eapply acyc_ext; [exact P|exact AC].
  - intros j J. unfold d' in J. rewrite upd_len in J. rewrite X. apply DE, J.
  - intros j s e. rewrite S. destruct (Nat.eqb_spec j k) as [->|]; [|apply BO]. destruct (get_elementdata d k) as [e0|] eqn:G; [|discriminate]. cbn. intros H. inversion H; subst. cbn.
    unfold content. cbn. rewrite filter_app, in_app_iff. intros [I|I]; [eapply (BO k (shape_of e0)); [unfold sh; rewrite G; reflexivity|exact I]|].
    apply filter_In in I. destruct I as ([I|[]] & _). subst. discriminate.
  - intros j J. rewrite P. split; [|reflexivity]. rewrite X. exact J.
Qed.

(* ---------------------------------------------------------------- annotate *)
Lemma ids_grow_trans a b c x y : ids_grow a b x -> ids_grow b c y -> ids_grow a c (x ++ y).
Proof. intros H K id I. rewrite in_app_iff. destruct (K _ I) as [Q|Q]; [|auto]. destruct (H _ Q); auto. Qed.
Lemma sh_exists d k : get_elementdata d k <> None -> k < sh_len d.
Proof. intros H. destruct (sh d k) as [s|] eqn:G; [eapply sh_lt, G|]. unfold sh in G. destruct (get_elementdata d k); [discriminate|congruence]. Qed.
Lemma check_exists d p e u : check_element_addable d p e = Ok u -> get_elementdata d p <> None.
Proof. unfold check_element_addable. destruct (get_elementdata d p); [discriminate|discriminate]. Qed.
Lemma forest_add_to fuel d p e d1 k : forest d -> get_elementdata d p <> None -> fresh_for d e -> add_element_to fuel d p e = (d1, Ok k) -> forest d1.
Proof. intros F P FR H. eapply add_element_to_tree; [apply sh_exists, P|exact FR|exact H|exact F]. Qed.
Lemma fresh_for_layer lt set d : fresh_for d (match set with Some s => e_set_attrib (e_new lt) (A_Set s) | None => e_new lt end) /\
  ids_in (match set with Some s => e_set_attrib (e_new lt) (A_Set s) | None => e_new lt end) = [].
Proof.
  destruct set as [s|]; cbn; (split; [|reflexivity]); (split; [|split; [constructor|intros id []]]); constructor; cbn; auto; intros ? [].
Qed.
Lemma forest_add_checked fuel d p e d1 k : forest d -> fresh_for d e -> add_checked fuel d p e = (d1, Ok k) -> forest d1.
Proof.
  intros F FR H. unfold add_checked in H. apply sbind_ok in H. destruct H as (d2 & u & C & H). inversion C; subst.
  eapply forest_add_to; [exact F|eapply check_exists; eassumption|exact FR|exact H].
Qed.
Lemma forest_add_in_layer fuel d lo ho t lt set e d1 k : forest d -> fresh_for d e -> add_in_layer fuel d lo ho t lt set e = (d1, Ok k) -> forest d1.
Proof.
  intros F FR H. unfold add_in_layer in H. apply sbind_ok in H. destruct H as (d2 & lk & E & H). injection E as <- E. clear E.
  apply sbind_ok in H. destruct H as (d3 & lk2 & E & H).
  assert (X : forest d3 /\ fresh_for d3 e).
  { destruct lk as [k0|]; [injection E as <- _; auto|]. destruct (fresh_for_layer lt set d) as (FL & IL).
    apply sbind_ok in E. destruct E as (d4 & u & C & E). injection C as <- C. apply check_exists in C. apply sh_exists in C.
    destruct (add_element_to_tree _ _ _ _ _ _ C FL E) as (_ & _ & _ & _ & _ & G & F3). split; [apply F3, F|].
    destruct FR as (A & B & D). split; [exact A|]. split; [exact B|]. intros id I. apply not_has_id. intros Q. destruct (G _ Q) as [Q'|Q']; [|rewrite IL in Q'; destruct Q'].
    apply not_has_id in Q'; [exact Q'|apply D, I]. }
  destruct X as (F3 & FR3). exact (forest_add_checked fuel d3 lk2 e d1 k F3 FR3 H).
Qed.
Lemma forest_annotate fuel d p e d1 k : forest d -> fresh_for d e -> annotate fuel d p e = (d1, Ok k) -> forest d1.
Proof.
  intros F FR H. unfold annotate in H. destruct (get_elementdata d p) as [pe|]; [|discriminate].
  destruct (group_contains EG_Span (e_type e)); [|eapply forest_add_checked; eassumption].
  apply sbind_ok in H. destruct H as (d2 & t & E & H). injection E as <- E. apply sbind_ok in H. destruct H as (d2 & lt & E2 & H). injection E2 as <- E2.
  cbv zeta in H. apply sbind_ok in H. destruct H as (d2 & set & E3 & H). injection E3 as <- E3.
  destruct (p_wrefable (props (e_type pe))).
  - destruct (get_span_keys d e) as [|x l]; [discriminate|]. apply sbind_ok in H. destruct H as (d2 & s & E4 & H). injection E4 as <- E4.
    apply sbind_ok in H. destruct H as (d2 & anc & E5 & H). injection E5 as <- E5. destruct (find (suitable d lt) anc); [|discriminate].
    eapply forest_add_in_layer; eassumption.
  - destruct (negb false && group_contains EG_Structure (e_type pe)); [eapply forest_add_in_layer; eassumption|eapply forest_add_checked; eassumption].
Qed.
Lemma forest_annotate_span fuel d e d1 k : forest d -> fresh_for d e -> annotate_span fuel d e = (d1, Ok k) -> forest d1.
Proof.
  intros F FR H. unfold annotate_span in H. destruct (negb _); [discriminate|]. destruct (get_span_keys d e); [discriminate|]. eapply forest_annotate; eassumption.
Qed.

(* ---------------------------------------------------------------- every careful step *)
Lemma above_ancestor d a x : above (sh d) a x -> a = x \/ ancestor d a x.
Proof.
  intros A. induction A as [|x b E A IH]; [auto|]. right. rewrite sh_parent in E. destruct IH as [->|IH]; [apply anc_parent, E|eapply anc_up; eassumption].
Qed.
Lemma forget_ok {A} (r : document * res A) d : forget r = (d, Ok tt) -> exists a, r = (d, Ok a).
Proof. destruct r as [d1 [a| | |]]; cbn; intros H; inversion H; subst; eauto. Qed.
Lemma fresh_new_id d e : fresh_for d e -> new_id d e.
Proof. intros (A & B & C) id I. apply C. rewrite ids_in_eq, I. left. reflexivity. Qed.
Lemma fresh_kids d e : fresh_for d e -> child_keys (e_data e) = [].
Proof.
  intros (A & _ & _). inversion A as [e' _ NE _ _]; subst. destruct (child_keys (e_data e)) as [|c l] eqn:E; [reflexivity|].
  exfalso. apply (NE c), in_child_keys. rewrite E. left. reflexivity.
Qed.
Lemma fresh_parent d e : fresh_for d e -> e_parent e = None.
Proof. intros (A & _ & _). inversion A; assumption. Qed.
Lemma store_add_forest d e ctx : forest d -> fresh_for d e -> no_nested e -> forest (fst (store_add d e ctx)).
Proof.
  intros F FR NN. destruct (store_add d e ctx) as [d1 [k| | |]] eqn:H;
    try (pose proof (store_add_fail_sh d e ctx) as S; rewrite H in S; eapply forest_same; [apply S; discriminate|exact F]).
  eapply (forest_store d e ctx d1 k F); [apply fresh_new_id, FR|eapply fresh_parent, FR|exact NN|eapply fresh_kids, FR|exact H].
Qed.
Lemma no_nested_add e : no_nested e -> existsb is_add (e_data e) = false.
Proof.
  intros H. destruct (existsb is_add (e_data e)) eqn:E; [|reflexivity]. apply existsb_exists in E. destruct E as (x & I & A). destruct x; try discriminate. destruct (H _ I).
Qed.
Lemma forest_step d o d' : forest d -> careful_step d o d' -> forest d'.
Proof.
  intros F (_ & C & fuel & r & H & R & OKR).
  assert (E : forall d1, doc_elements d1 = doc_elements d -> forest d1) by (intros d1 Q; eapply forest_same; [apply same_sh_elements, Q|exact F]).
  assert (FST : d' = fst (run_op fuel d o)) by (rewrite H; reflexivity).
  destruct o; cbn [careful adds_elements run_op] in *; try rewrite forget_fst in FST.
  - destruct C as (FR & NN). subst d'. rewrite add_element_plain by (apply no_nested_add, NN). apply store_add_forest; assumption.
  - destruct C as (P & FR). destruct (OKR I) as [->| ->]; [|exact F]. apply forget_ok in H. destruct H as (k & H). eapply forest_add_to; eassumption.
  - destruct C as (FR & NN). subst d'. apply store_add_forest; assumption.
  - clear FST. destruct C as (NE & NA). unfold attach_element in H. destruct (get_elementdata d parent) eqn:GP; [|inversion H; subst; exact F].
    destruct (get_elementdata d child) eqn:GC; [|inversion H; subst; exact F]. injection H as H <-.
    eapply (forest_attach d parent child d' F).
    + intros A. apply above_ancestor in A. destruct A; [congruence|contradiction].
    + unfold attach_element. rewrite GP, GC. rewrite H. reflexivity.
  - clear FST. unfold detach_element in H. destruct (get_elementdata d child) eqn:GC; [|inversion H; subst; exact F]. injection H as H <-.
    eapply (forest_detach d child d' F). unfold detach_element. rewrite GC, H. reflexivity.
  - destruct (OKR I) as [->| ->]; [|exact F]. apply forget_ok in H. destruct H as (k & H). eapply forest_annotate; eassumption.
  - destruct (OKR I) as [->| ->]; [|exact F]. apply forget_ok in H. destruct H as (k & H). eapply forest_annotate_span; eassumption.
  - apply E. subst. apply declare_elements.
  - apply E. subst. apply add_declaration_elements.
  - apply E. subst. apply doc_add_class_elements.
  - apply E. subst. apply add_provenance_elements.
  - apply E. subst. apply add_processor_elements.
  - apply E. subst. apply add_subprocessor_elements.
  - apply E. subst. apply attach_processor_elements.
  - apply E. subst. reflexivity.
  - apply E. subst. apply apply_properties_elements.
Qed.

(* ---------------------------------------------------------------- loading *)
Lemma parse_attrib_textual O k v a : parse_attrib O k v = Ok a -> decodable a = false /\ forall id, a = A_Id id -> k = "xml:id"%string /\ v = Some id.
Proof.
  unfold parse_attrib. destruct v as [v|]; [|discriminate]. destruct (str_match (attrib_parsers O) k) as [f|] eqn:M.
  - intros H. unfold attrib_parsers in M. cbn [str_match] in M.
    repeat match type of M with (if String.eqb ?x ?y then _ else _) = _ => destruct (String.eqb_spec x y) as [EQ|_]; [injection M as <-|] end; try discriminate M;
      try (injection H as <-; split; [reflexivity|]; intros id Q; try discriminate Q; injection Q as ->; auto; fail);
      unfold parse_annotatortype, parse_yes_no in H; cbv beta in H;
      repeat match type of H with (if ?b then _ else _) = _ => destruct b | match ?x with Some _ => _ | None => _ end = _ => destruct x end;
      try discriminate H; injection H as <-; split; try reflexivity; discriminate.
  - destruct (str_contains_char _ k); [|discriminate]. intros H. injection H as <-. split; [reflexivity|discriminate].
Qed.
(* the feature elements made from attributes *)
Definition feature_like (c : elementdata) : Prop := exists s v, c = feature_child s v.
Lemma parse_attributes_spec O et l : forall x, parse_attributes O et l = Ok x ->
  textual (fst x) /\ (forall id, attribs_id (fst x) = Some id -> In id (tag_ids l)) /\ forall c, In c (snd x) -> feature_like c.
Proof.
  induction l as [|[a|] l IH]; intros x H; cbn in H; [injection H as <-; cbn; split; [intros a []|split; [discriminate|intros c []]]| |discriminate].
  unfold tag_ids. cbn [flat_map]. fold (tag_ids l).
  destruct (parse_attrib O (xa_key a) (xa_val a)) as [at_|e| |] eqn:P; try discriminate.
  - apply rbind_ok in H. destruct H as (y & Y & H). injection H as <-. destruct (IH _ Y) as (A & B & C). apply parse_attrib_textual in P. destruct P as (P1 & P2). cbn [fst snd]. split; [|split; [|exact C]].
    + intros b [<-|I]; [exact P1|apply A, I].
    + intros id E. apply in_app_iff. destruct at_; cbn in E; try (right; apply B, E; fail). injection E as ->. destruct (P2 _ eq_refl) as (K & V). left. rewrite K, V. cbn. auto.
  - destruct (xa_val a) as [v|] eqn:V; [|discriminate]. destruct (feature_subset _ _) as [s|]; [|discriminate]. apply rbind_ok in H. destruct H as (y & Y & H). injection H as <-.
    destruct (IH _ Y) as (A & B & C). cbn [fst snd]. split; [exact A|]. split.
    + intros id E. apply in_app_iff. right. apply B, E.
    + intros c [<-|I]; [exists s, v; reflexivity|apply C, I].
Qed.
Lemma load_ok_normal O l : load_ok normal O l.
Proof.
  intros ns name attrs _ et x _ P. apply parse_attributes_spec in P. destruct P as (A & _ & C). split; [exact A|].
  intros c I. destruct (C c I) as (s & v & ->). intros a [<-|[<-|[]]]; reflexivity.
Qed.
Theorem tidy_reachable d : tidy d -> reachable normal d.
Proof.
  intros T. induction T as [id p d P H|fuel O p l d P N H|d o d' T IH S].
  - eapply reach_new; eassumption.
  - eapply reach_load; [exact P|apply load_ok_normal|exact H].
  - destruct S as (A & _ & fuel & r & H & R & _). eapply reach_op; eassumption.
Qed.

Lemma prim0_len g a b : prim0 g a b -> sh_len b = sh_len a /\ st_index (doc_elements b) = st_index (doc_elements a).
Proof.
  intros P. unfold sh_len. destruct P; try (rewrite add_declaration_elements; auto; fail); try (rewrite add_provenance_elements; auto; fail); docs_g; try rewrite st_set_len; auto.
Qed.
Lemma prims0_len g a b : prims0 g a b -> sh_len b = sh_len a /\ st_index (doc_elements b) = st_index (doc_elements a).
Proof. intros P. induction P as [|x y z Q R IH]; [auto|]. apply prim0_len in Q. destruct Q, IH. split; congruence. Qed.
Lemma forest_empty d : sh_len d = 0 -> forest d.
Proof.
  intros E. assert (N : forall k, sh d k = None). { intros k. destruct (sh d k) eqn:G; [|reflexivity]. apply sh_lt in G. lia. }
  split.
  - split; intros p c; unfold skids, spar; rewrite !N; [reflexivity|intros []].
  - intros k. constructor. intros p. unfold spar. rewrite N. discriminate.
  - intros k K. lia.
  - intros k s e. rewrite N. discriminate.
Qed.

(* the open elements have no parent yet, and the IDs still to come are new *)
Record pinv (d : document) (st : list nat) (l : list event) : Prop := {
  pi_forest : forest d;
  pi_nodup : NoDup st;
  pi_open : forall k, In k st -> sh d k <> None /\ spar (sh d) k = None;
  pi_ids : forall id, has_id d id -> ~ In id (xml_ids l);
  pi_new : NoDup (xml_ids l) }.

Lemma add_attr_children_forest key l : (forall c, In c l -> feature_like c) -> forall d d', forest d -> sh d key <> None -> add_attr_children d key l = (d', Ok tt) ->
  forest d' /\ grown d d' /\ st_index (doc_elements d') = st_index (doc_elements d).
Proof.
  induction l as [|c l IH]; intros FL d d' F X H; cbn in H; [injection H as <-; auto using grown_refl|].
  apply sbind_ok in H. destruct H as (d1 & ck & S & H). apply sbind_ok in H. destruct H as (d2 & u & A & H). destruct u.
  destruct (FL c (or_introl eq_refl)) as (s & v & ->).
  destruct (forest_store d (feature_child s v) (Some key) d1 ck F) as (EK & L1 & F1 & S1 & I1); auto.
  { intros id E. discriminate E. } { intros x [I|[]]. discriminate I. }
  assert (KL : key < sh_len d). { destruct (sh d key) eqn:G; [eapply sh_lt, G|congruence]. }
  assert (O1 : forall j, j < sh_len d -> sh d1 j = sh d j). { intros j J. rewrite S1. destruct (Nat.eqb_spec j ck); [lia|reflexivity]. }
  destruct (forest_attach d1 key ck d2 F1) as (F2 & S2 & L2 & I2); [|exact A|].
  { intros AB. eapply (old_not_above d d1 ck F O1); [lia|exact AB|exact KL]. }
  assert (G2 : grown d d2).
  { intros j J. assert (JL : j < sh_len d). { destruct (sh d j) eqn:G; [eapply sh_lt, G|congruence]. }
    assert (Q : spar (sh d2) j = spar (move (sh d1) ck (Some key)) j) by (unfold spar; rewrite S2; reflexivity).
    rewrite Q, moved_spar by (rewrite S1, Nat.eqb_refl; discriminate). destruct (Nat.eqb_spec j ck); [lia|]. split; [|unfold spar; rewrite O1 by exact JL; reflexivity].
    rewrite S2. unfold move. rewrite O1 by exact JL. destruct (sh d j); [discriminate|congruence]. }
  destruct (IH (fun c0 I0 => FL c0 (or_intror I0)) d2 d' F2) as (F3 & G3 & I3); [apply G2, X|exact H|].
  split; [exact F3|]. split; [eapply grown_trans; eassumption|]. rewrite I3, I2, I1. reflexivity.
Qed.
Lemma has_id_after d d1 e k id : st_index (doc_elements d1) = match e_id e with Some id => smap_insert id k (st_index (doc_elements d)) | None => st_index (doc_elements d) end ->
  has_id d1 id -> has_id d id \/ e_id e = Some id.
Proof.
  intros I. unfold has_id, get_element_key_by_id, st_id_to_key. rewrite I. destruct (e_id e) as [i|]; [|auto]. rewrite smap_get_insert. destruct (String.eqb_spec id i) as [->|]; auto.
Qed.
Lemma parse_elem_spec O name attrs x : parse_err (parse_elem O name attrs) = Ok x ->
  exists et at_, fst x = mkElem et at_ [] None None /\ (forall id, attribs_id at_ = Some id -> In id (tag_ids attrs)) /\ textual at_ /\ forall c, In c (snd x) -> feature_like c.
Proof.
  intros H. apply parse_err_ok in H. unfold parse_elem in H. apply rbind_ok in H. destruct H as (et & _ & H).
  apply rbind_ok in H. destruct H as (y & Y & H). apply parse_err_ok in Y. injection H as <-. apply parse_attributes_spec in Y. destruct Y as (A & B & C).
  exists et, (fst y). auto.
Qed.
Lemma xml_ids_step ev l : NoDup (xml_ids (ev :: l)) -> NoDup (xml_ids l).
Proof. unfold xml_ids. cbn. intros H. apply NoDup_app_inv in H. tauto. Qed.
Lemma pinv_skip d st ev l : pinv d st (ev :: l) -> pinv d st l.
Proof.
  intros [F N O I X]. split; auto; [|eapply xml_ids_step, X]. intros id H J. apply (I id H). unfold xml_ids in *. cbn. apply in_app_iff. auto.
Qed.
Lemma pinv_next d st l d' st' : pinv d st l -> forest d' -> grown d d' -> st_index (doc_elements d') = st_index (doc_elements d) -> (forall k, In k st' -> In k st) -> NoDup st' -> pinv d' st' l.
Proof.
  intros [F N O I X] F' G E S N'. split; auto.
  - intros k K. apply S in K. destruct (O k K) as (A & B). destruct (G k A) as (C & D). split; [exact C|congruence].
  - intros id H. apply I. rewrite <- (has_id_index d d' id E). exact H.
Qed.
(* a new element of a tag: stored, with the features from its attributes *)
Lemma pinv_tag d st l attrs e ctx d1 key : pinv d st l -> NoDup (tag_ids attrs) -> (forall id, In id (tag_ids attrs) -> ~ has_id d id /\ ~ In id (xml_ids l)) ->
  (forall id, e_id e = Some id -> In id (tag_ids attrs)) -> e_data e = [] -> e_parent e = None -> store_add d e ctx = (d1, Ok key) ->
  key = sh_len d /\ pinv d1 (key :: st) l /\ (forall j, j < sh_len d -> sh d1 j = sh d j).
Proof.
  intros [F N O I X] ND NEW ID ED EP H.
  destruct (forest_store d e ctx d1 key F) as (EK & L1 & F1 & S1 & I1); auto; try (rewrite ED; auto; fail).
  { intros id E. apply not_has_id, NEW, ID, E. }
  assert (O1 : forall j, j < sh_len d -> sh d1 j = sh d j). { intros j J. rewrite S1. destruct (Nat.eqb_spec j key); [lia|reflexivity]. }
  assert (OL : forall k, In k st -> k < sh_len d). { intros k K. destruct (O k K) as (A & _). destruct (sh d k) eqn:G; [eapply sh_lt, G|congruence]. }
  split; [exact EK|]. split; [|exact O1]. split; auto.
  - constructor; [|exact N]. intros K. apply OL in K. lia.
  - intros k [<-|K].
    + unfold spar. rewrite S1, Nat.eqb_refl. split; [discriminate|exact EP].
    + unfold spar. rewrite O1 by (apply OL, K). apply O, K.
  - intros id Q. apply (has_id_after d d1 e key) in Q; [|exact I1]. destruct Q as [Q|Q]; [apply I, Q|apply NEW, ID, Q].
Qed.
Lemma push_data_pinv d st s mk l : (forall s, is_add (mk s) = false) -> (forall s c, mk s <> DElement c) -> pinv d st l -> pinv (push_data d st s mk) st l.
Proof.
  intros A B P. unfold push_data. destruct (is_blank s); [exact P|]. destruct st as [|top st]; [exact P|].
  destruct (forest_push d top (mk s) (pi_forest _ _ _ P) (A s) (B s)) as (F & G). eapply pinv_next; [exact P|exact F|exact G|apply upd_index|auto|apply P].
Qed.
Lemma attach_pinv d st l p c d' : pinv d st l -> In p st -> ~ In c st -> ~ above (sh d) c p -> attach_element d p c = (d', Ok tt) -> pinv d' st l.
Proof.
  intros P IP NC NA H. destruct (forest_attach d p c d' (pi_forest _ _ _ P) NA H) as (F & S & L & I). destruct (attach_exists _ _ _ _ H) as (XP & XC).
  pose proof P as [F0 N0 O0 I0 X0]. split; auto.
  - intros k K. destruct (O0 k K) as (A & B). split.
    + rewrite S. unfold move. destruct (sh d k); [discriminate|congruence].
    + assert (Q : spar (sh d') k = spar (move (sh d) c (Some p)) k) by (unfold spar; rewrite S; reflexivity). rewrite Q, moved_spar by exact XC.
      destruct (Nat.eqb_spec k c) as [->|]; [contradiction|exact B].
  - intros id Q. apply I0. rewrite <- (has_id_index d d' id I). exact Q.
Qed.
Lemma elements_step_pinv fuel O d st ev l d' p : pinv d st (ev :: l) -> elements_step fuel O d st ev = (d', Ok p) ->
  match p with PContinue st' => pinv d' st' l | PBreak => forest d' end.
Proof.
  intros PI H. pose proof (pinv_skip _ _ _ _ PI) as PS. pose proof PI as [F0 N0 O0 I0 X0].
  assert (TAG : forall attrs, (exists ns name, ev = EvStart ns name attrs \/ ev = EvEmpty ns name attrs) ->
    NoDup (tag_ids attrs) /\ forall id, In id (tag_ids attrs) -> ~ has_id d id /\ ~ In id (xml_ids l)).
  { intros attrs (ns & name & E). assert (XE : xml_ids (ev :: l) = tag_ids attrs ++ xml_ids l) by (destruct E as [->| ->]; reflexivity).
    rewrite XE in X0, I0. apply NoDup_app_inv in X0. destruct X0 as (A & B & C). split; [exact A|]. intros id J. split; [|apply C, J]. intros Q. apply (I0 id Q), in_app_iff. auto. }
  destruct ev as [ns name attrs|ns name attrs|ns name|[t|]|[t|]|[t|]| |]; cbn [elements_step] in H; try discriminate; try (injection H as <- <-; exact PS);
    try (injection H as <- <-; apply push_data_pinv; [reflexivity|discriminate|exact PS]).
  - destruct ns; try (injection H as <- <-; exact PS). destruct (TAG attrs) as (ND & NEW); [eauto|].
    apply sbind_ok in H. destruct H as (dz & x & X & H). injection X as <- X. apply sbind_ok in H. destruct H as (d1 & key & S & H).
    apply map_err_ok in S. apply sbind_ok in H. destruct H as (d2 & u & A & H). injection H as <- <-. destruct u.
    destruct (parse_elem_spec _ _ _ _ X) as (et & at_ & EX & IDS & _ & FL). rewrite EX in S.
    destruct (pinv_tag d st l attrs (mkElem et at_ [] None None) (hd_error st) d1 key PS ND NEW IDS eq_refl eq_refl S) as (EK & P1 & O1).
    destruct (add_attr_children_forest key (snd x) FL d1 d2 (pi_forest _ _ _ P1)) as (F2 & G2 & I2); [apply (pi_open _ _ _ P1); left; reflexivity|exact A|].
    eapply pinv_next; [exact P1|exact F2|exact G2|exact I2|auto|apply P1].
  - destruct ns; try (injection H as <- <-; exact PS). destruct (TAG attrs) as (ND & NEW); [eauto|].
    apply sbind_ok in H. destruct H as (dz & x & X & H). injection X as <- X. apply sbind_ok in H. destruct H as (d1 & key & S & H).
    apply map_err_ok in S. destruct (parse_elem_spec _ _ _ _ X) as (et & at_ & EX & IDS & _ & FL). rewrite EX in S.
    destruct (pinv_tag d st l attrs (mkElem et at_ [] None None) (hd_error st) d1 key PS ND NEW IDS eq_refl eq_refl S) as (EK & P1 & O1).
    apply sbind_ok in H. destruct H as (d2 & u & A & H). apply sbind_ok in H. destruct H as (d3 & v & B & H). apply sbind_ok in H. destruct H as (d4 & w & C & H). injection H as <- <-.
    destruct v. assert (P1' : pinv d1 st l). { eapply pinv_next; [exact P1|apply P1|apply grown_refl|reflexivity|intros k K; right; exact K|exact N0]. }
    assert (NK : ~ In key st). { pose proof (pi_nodup _ _ _ P1) as Q. inversion Q; assumption. }
    assert (P2 : pinv d2 st l /\ sh d2 key <> None).
    { destruct st as [|top st]; [injection A as <- _; split; [exact P1'|apply (pi_open _ _ _ P1); left; reflexivity]|]. destruct u.
      assert (TL : top < sh_len d). { destruct (O0 top (or_introl eq_refl)) as (Q & _). destruct (sh d top) eqn:G; [eapply sh_lt, G|congruence]. }
      split; [eapply attach_pinv; [exact P1'|left; reflexivity|exact NK| |exact A]|].
      - intros AB. apply (old_not_above d d1 key F0 O1 (Nat.eq_le_incl _ _ (eq_sym EK)) top AB TL).
      - destruct (attach_get _ _ _ _ (f_linked _ (pi_forest _ _ _ P1)) A) as (_ & (ce & GC) & G & _). unfold sh. rewrite G, GC. discriminate. }
    destruct P2 as (P2 & XK). destruct (add_attr_children_forest key (snd x) FL d2 d3 (pi_forest _ _ _ P2)) as (F3 & G3 & I3); [exact XK|exact B|].
    assert (P3 : pinv d3 st l) by (eapply pinv_next; [exact P2|exact F3|exact G3|exact I3|auto|exact N0]).
    pose proof (post_add_sh fuel d3 key (Some (rev st))) as PA. rewrite C in PA. cbn [fst] in PA.
    eapply pinv_next; [exact P3|eapply forest_same; [exact PA|exact F3]|apply same_grown, PA|apply PA|auto|exact N0].
  - destruct ns; try (injection H as <- <-; exact PS). destruct st as [|key [|top st]]; try (injection H as <- <-; exact F0).
    apply sbind_ok in H. destruct H as (d1 & u & A & H). pose proof (post_add_sh fuel d key (Some (rev (top :: st)))) as PA. rewrite A in PA. cbn [fst] in PA.
    assert (P1 : pinv d1 (key :: top :: st) l) by (eapply pinv_next; [exact PS|eapply forest_same; [exact PA|exact F0]|apply same_grown, PA|apply PA|auto|exact N0]).
    destruct (get_elementdata d1 key) as [e|]; [|discriminate]. apply sbind_ok in H. destruct H as (dz & et & E & H). injection E as <- E.
    destruct (et_eqb (e_type e) et); [|discriminate]. apply sbind_ok in H. destruct H as (d2 & v & B & H). injection H as <- <-. destruct v.
    inversion N0 as [|? ? NK NT]; subst. eapply attach_pinv; [|left; reflexivity|exact NK| |exact B].
    + eapply pinv_next; [exact P1|apply P1|apply grown_refl|reflexivity|intros k K; right; exact K|exact NT].
    + intros AB. apply above_parent in AB; [|apply (pi_open _ _ _ P1); right; left; reflexivity]. subst. apply NK. left. reflexivity.
Qed.
Lemma parse_loop_forest fuel O l : forall d st d', pinv d st l -> parse_elements_loop fuel O d st l = (d', Ok tt) -> forest d'.
Proof.
  induction l as [|ev l IH]; intros d st d' P H; cbn in H; [injection H as <-; apply P|].
  apply sbind_ok in H. destruct H as (d1 & p & S & H). pose proof (elements_step_pinv _ _ _ _ _ _ _ _ P S) as Q. destruct p as [st'|]; [eapply IH; eassumption|injection H as <-; exact Q].
Qed.
(* the rest of the file after a part of it *)
Definition suffix {A} (r l : list A) : Prop := exists a, l = a ++ r.
Lemma suffix_cons {A} x (r l : list A) : suffix r l -> suffix r (x :: l).
Proof. intros (a & ->). exists (x :: a). reflexivity. Qed.
Lemma suffix_refl {A} (l : list A) : suffix l l.
Proof. exists []. reflexivity. Qed.
Lemma suffix_ids r l : suffix r l -> exists a, xml_ids l = a ++ xml_ids r.
Proof. intros (a & ->). unfold xml_ids. rewrite flat_map_app. eauto. Qed.
Lemma parse_root_suffix l : forall d d' r, parse_root d l = Ok (d', r) -> suffix r l /\ exists ns name attrs, suffix (EvStart ns name attrs :: r) l.
Proof.
  induction l as [|ev l IH]; intros d d' r; cbn; [discriminate|].
  assert (K : parse_root d l = Ok (d', r) -> suffix r (ev :: l) /\ exists ns name attrs, suffix (EvStart ns name attrs :: r) (ev :: l)).
  { intros H. apply IH in H. destruct H as (A & ns & name & attrs & B). split; [apply suffix_cons, A|]. exists ns, name, attrs. apply suffix_cons, B. }
  destruct ev; try exact K; try discriminate. destruct ns; try discriminate. destruct (String.eqb name "FoLiA"); [|discriminate].
  intros H. apply rbind_ok in H. destruct H as (d1 & H & E). inversion E; subst. split; [apply suffix_cons, suffix_refl|]. exists NsFolia, name, attrs. apply suffix_refl.
Qed.
Lemma parse_metadata_suffix l : forall d s d' r, parse_metadata d s l = (d', Ok r) -> suffix r l.
Proof.
  induction l as [|ev l IH]; intros d s d' r; cbn; [discriminate|].
  assert (K : forall d s, parse_metadata d s l = (d', Ok r) -> suffix r (ev :: l)) by (intros d0 s0 H; apply suffix_cons; eapply IH, H).
  destruct ev as [ns name attrs|ns name attrs|ns name|[t|]|t|t| |]; try apply K; try discriminate.
  - intros H. apply sbind_ok in H. destruct H as (d1 & s1 & _ & H). eapply K, H.
  - intros H. apply sbind_ok in H. destruct H as (d1 & s1 & _ & H). eapply K, H.
  - destruct (meta_end d s ns name) as [d1 [s1|]]; [apply K|]. intros H; inversion H; subst. apply suffix_cons, suffix_refl.
Qed.
Lemma parse_body_suffix O l : forall b r, parse_body O l = Ok (Some b, r) ->
  exists ns name attrs et x, suffix (EvStart ns name attrs :: r) l /\ parse_attributes O et attrs = Ok x /\ b = mkElem et (fst x) [] None None.
Proof.
  induction l as [|ev l IH]; intros b r; cbn; [discriminate|].
  assert (K : parse_body O l = Ok (Some b, r) -> exists ns name attrs et x, suffix (EvStart ns name attrs :: r) (ev :: l) /\ parse_attributes O et attrs = Ok x /\ b = mkElem et (fst x) [] None None).
  { intros H. apply IH in H. destruct H as (ns & name & attrs & et & x & S & H). exists ns, name, attrs, et, x. split; [apply suffix_cons, S|exact H]. }
  destruct ev; try exact K; try discriminate. destruct ns; try discriminate.
  destruct (String.eqb name "text"); [|destruct (String.eqb name "speech"); [|discriminate]].
  - destruct (parse_attributes O ET_Text attrs) as [x| | |] eqn:E; try discriminate. intros H. injection H as <- <-. exists NsFolia, name, attrs, ET_Text, x. split; [apply suffix_refl|auto].
  - destruct (parse_attributes O ET_Speech attrs) as [x| | |] eqn:E; try discriminate. intros H. injection H as <- <-. exists NsFolia, name, attrs, ET_Speech, x. split; [apply suffix_refl|auto].
Qed.
Lemma forest_load fuel O p l d : NoDup (xml_ids l) -> parse_document fuel O p l = Ok d -> forest d.
Proof.
  intros ND H. unfold parse_document in H. apply rbind_ok in H. destruct H as ([d1 l1] & R & H).
  assert (HP : forall p l, parse_processor l = Ok p -> g_proc anything p) by (intros; exact I).
  pose proof (proj1 (parse_root_p0 anything _ _ _ _ R)) as R0. apply prims0_len in R0. destruct R0 as (R1 & R2).
  apply parse_root_suffix in R. destruct R as (S1 & _).
  pose proof (parse_metadata_p0 anything (fun _ _ _ _ => I) HP l1 d1 ms_init) as M. apply prims0_len in M.
  pose proof (parse_metadata_suffix l1 d1 ms_init) as S2. destruct (parse_metadata d1 ms_init l1) as [d2 r2]. cbn [fst] in M. destruct M as (M1 & M2).
  apply rbind_ok in H. destruct H as (l2 & E2 & H). subst r2. specialize (S2 _ _ eq_refl).
  apply rbind_ok in H. destruct H as ([[body|] l3] & B & H); [|discriminate]. apply parse_body_suffix in B. destruct B as (ns & name & attrs & et & x & S3 & PA & ->).
  apply parse_attributes_spec in PA. destruct PA as (_ & IDS & _).
  match type of H with (let (_, _) := ?x in _) = _ => destruct x as [d5 r5] eqn:E end.
  apply rbind_ok in H. destruct H as (u & -> & H). injection H as <-. destruct u.
  apply sbind_ok in E. destruct E as (d3 & k & E3 & E). apply map_err_ok in E3. apply sbind_ok in E. destruct E as (d4 & u & E4 & E). apply map_err_ok in E4.
  assert (L0 : sh_len d2 = 0) by (rewrite M1, R1; reflexivity).
  assert (NI : forall id, ~ has_id d2 id). { intros id Q. rewrite (has_id_index d1 d2 id M2) in Q. unfold has_id, get_element_key_by_id, st_id_to_key in Q. rewrite R2 in Q. apply Q. reflexivity. }
  assert (XI : NoDup (tag_ids attrs ++ xml_ids l3)).
  { assert (S : suffix (EvStart ns name attrs :: l3) l). { destruct S1 as (a & ->), S2 as (b & ->), S3 as (c & ->). exists (a ++ b ++ c). rewrite !app_assoc. reflexivity. }
    apply suffix_ids in S. destruct S as (a & S). rewrite S in ND. apply NoDup_app_inv in ND. destruct ND as (_ & ND & _). exact ND. }
  apply NoDup_app_inv in XI. destruct XI as (X1 & X2 & X3).
  assert (P0 : pinv d2 [] l3). { split; [apply forest_empty, L0|apply NoDup_nil|intros k0 []|intros id Q; destruct (NI id Q)|exact X2]. }
  destruct (pinv_tag d2 [] l3 attrs (mkElem et (fst x) [] None None) None d3 k P0 X1 (fun id J => conj (NI id) (X3 id J)) IDS eq_refl eq_refl E3) as (EK & P3 & _).
  rewrite L0 in EK. subst k.
  assert (EL : doc_elements d4 = doc_elements d3). { pose proof (apply_properties_elements d3 p) as Q. rewrite E4 in Q. exact Q. }
  pose proof (same_sh_elements d3 d4 EL) as SS.
  assert (P4 : pinv d4 [0] l3) by (eapply pinv_next; [exact P3|eapply forest_same; [exact SS|apply P3]|apply same_grown, SS|apply SS|auto|apply P3]).
  unfold parse_elements in E. destruct (st_items (doc_elements d4)); [discriminate|]. eapply parse_loop_forest; eassumption.
Qed.
Lemma forest_new id p d : doc_new id p = (d, Ok tt) -> forest d.
Proof.
  intros H. unfold doc_new in H. apply sbind_ok in H. destruct H as (d1 & b & E & H). apply sbind_ok in H. destruct H as (d2 & k & S & H).
  assert (X : d1 = doc_empty id (dp_autodeclare p) /\ b = e_new (match dp_bodytype p with BT_Text => ET_Text | BT_Speech => ET_Speech end)).
  { destruct (dp_bodytype p); cbn in E; injection E as <- <-; auto. }
  destruct X as (-> & ->). clear E.
  assert (F2 : forest d2).
  { eapply (forest_store (doc_empty id (dp_autodeclare p)) _ None d2 k); [apply forest_empty; reflexivity| | | | |exact S].
    - intros i E. discriminate E.
    - reflexivity.
    - intros x [].
    - reflexivity. }
  eapply forest_same; [|exact F2]. apply same_sh_elements. pose proof (apply_properties_elements d2 p) as Q. rewrite H in Q. exact Q.
Qed.
Theorem tidy_forest d : tidy d -> forest d.
Proof.
  intros T. induction T as [id p d P H|fuel O p l d P N H|d o d' T IH S].
  - eapply forest_new, H.
  - eapply forest_load; eassumption.
  - eapply forest_step; eassumption.
Qed.
