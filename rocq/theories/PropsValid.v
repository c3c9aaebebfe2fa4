(* Validation and annotate: C47 - C50.
   [in_list t l] (SelSpec.v): the type t is in the list l of accepted types and groups, by itself or as member of a group. *)
From Coq Require Import String List Bool Arith NArith Lia.
From Verif Require Import Base BaseFacts Types TypesFacts SpecTable Attrib AttribFacts Element Store StoreFacts Metadata Document Select DocOps Xml Parser History Spec
  FrameFacts InvFacts DocFacts StoreThms InternFacts EncodeFacts LinkFacts TreeFacts ForestFacts SelSpec SelectFacts Examples PropsEncode PropsLinks PropsSelect PropsQuery NoPanic ValidFacts.
Import ListNotations.
Open Scope list_scope.

(* the specification lists type c as content of elements of type t *)
Definition may_contain (t c : ElementType) : Prop := in_list c (p_accepted_data (props t)).

(* ================================================================ C47 *)
Theorem C47_check_exact : forall d p e, check_element_addable d p e = Ok tt <-> exists pe, get_elementdata d p = Some pe /\ may_contain (e_type pe) (e_type e).
Proof.
  intros d p e. split; [apply check_ok|]. intros (pe & G & A). unfold check_element_addable. rewrite G. apply accepts_type_spec in A. rewrite A. reflexivity.
Qed.
Print Assumptions C47_check_exact.
Theorem C47_check_errors : forall d p e, (get_elementdata d p = None -> check_element_addable d p e = Err EInternal) /\
  (forall pe, get_elementdata d p = Some pe -> ~ may_contain (e_type pe) (e_type e) -> check_element_addable d p e = Err EValidation).
Proof.
  intros d p e. unfold check_element_addable. split; [intros ->; reflexivity|]. intros pe -> N. destruct (existsb _ _) eqn:E; [|reflexivity]. destruct N. apply accepts_type_spec, E.
Qed.
Print Assumptions C47_check_errors.
Example C47_nonvacuous : check_element_addable ex_doc 3 (e_new ET_PosAnnotation) = Ok tt /\ may_contain ET_Word ET_PosAnnotation /\
  check_element_addable ex_doc 3 (e_new ET_Paragraph) = Err EValidation /\ ~ may_contain ET_Word ET_Paragraph /\ check_element_addable ex_doc 99 (e_new ET_Word) = Err EInternal.
Proof.
  split; [vm_compute; reflexivity|]. split; [apply accepts_type_spec; vm_compute; reflexivity|]. split; [vm_compute; reflexivity|]. split; [|vm_compute; reflexivity].
  intros H. apply accepts_type_spec in H. vm_compute in H. discriminate.
Qed.

(* ================================================================ C48 *)
(* every element of d is still there with its type and parent *)
Definition kept (d d1 : document) : Prop := forall j x, get_elementdata d j = Some x -> exists y, get_elementdata d1 j = Some y /\ e_type y = e_type x /\ e_parent y = e_parent x.
Lemma kept_trans a b c : kept a b -> kept b c -> kept a c.
Proof. intros A B j x G. destruct (A j x G) as (y & Y & T & P). destruct (B j y Y) as (z & Z & T' & P'). exists z. split; [exact Z|]. split; congruence. Qed.
Lemma added_to fuel d p e d1 k : fresh_for d e -> get_elementdata d p <> None -> add_element_to fuel d p e = (d1, Ok k) ->
  get_elementdata d k = None /\ (exists ke, get_elementdata d1 k = Some ke /\ e_type ke = e_type e) /\ parent_of d1 k = Some p /\ kept d d1 /\ ids_grow d d1 (ids_in e).
Proof.
  intros F P A. destruct (C23_add_element_to_appends_tree _ _ _ _ _ _ P F A) as (N & R & PA & K & _). split; [exact N|]. apply renders_eq in R. destruct R as (s & G & T & _).
  unfold sh in G. destruct (get_elementdata d1 k) as [ke|]; [|discriminate]. injection G as <-. split; [exists ke; auto|]. split; [exact PA|]. split.
  - intros j x GJ. destruct (K j x GJ) as (y & Y & T1 & T2 & _). eauto.
  - apply sh_exists in P. apply (add_element_to_tree _ _ _ _ _ _ P F A).
Qed.
Lemma fresh_after d d2 e : fresh_for d e -> ids_grow d d2 [] -> fresh_for d2 e.
Proof.
  intros (A & B & D) G. split; [exact A|]. split; [exact B|]. intros id I. apply not_has_id. intros Q. destruct (G _ Q) as [Q'|[]]. apply not_has_id in Q'; [exact Q'|apply D, I].
Qed.

(* what a successful annotate did: the new element k is under an element q, and q is an old element or a new layer *)
Record placed (d d1 : document) (k : nat) (e : elementdata) (q : nat) : Prop := {
  pl_new : get_elementdata d k = None;
  pl_elem : exists ke, get_elementdata d1 k = Some ke /\ e_type ke = e_type e;
  pl_parent : parent_of d1 k = Some q;
  pl_accepts : exists qe, get_elementdata d1 q = Some qe /\ may_contain (e_type qe) (e_type e);
  pl_holder : get_elementdata d q = None -> exists h he qe, parent_of d1 q = Some h /\ get_elementdata d h = Some he /\ get_elementdata d1 q = Some qe /\ may_contain (e_type he) (e_type qe);
  pl_kept : kept d d1 }.
Lemma placed_checked fuel d p e d1 k : fresh_for d e -> check_element_addable d p e = Ok tt -> add_element_to fuel d p e = (d1, Ok k) -> placed d d1 k e p.
Proof.
  intros F C A. destruct (check_ok _ _ _ _ C) as (pe & GP & AC). assert (P : get_elementdata d p <> None) by congruence.
  destruct (added_to _ _ _ _ _ _ F P A) as (N & E & PA & K & _). destruct (K p pe GP) as (y & Y & T & _). split; auto; [|congruence].
  exists y. split; [exact Y|]. unfold may_contain. rewrite T. exact AC.
Qed.
Lemma placed_after fuel d d2 ho lt set lk e d1 k : fresh_for d e -> check_element_addable d ho (new_layer lt set) = Ok tt -> add_element_to fuel d ho (new_layer lt set) = (d2, Ok lk) ->
  check_element_addable d2 lk e = Ok tt -> add_element_to fuel d2 lk e = (d1, Ok k) -> placed d d1 k e lk /\ exists le, get_elementdata d1 lk = Some le /\ e_type le = lt.
Proof.
  intros F C A C2 A2. destruct (fresh_for_layer lt set d) as (FL & IL). fold (new_layer lt set) in FL, IL. destruct (check_ok _ _ _ _ C) as (pe & GP & AC). rewrite new_layer_type in AC.
  assert (P : get_elementdata d ho <> None) by congruence. destruct (added_to _ _ _ _ _ _ FL P A) as (N & (le & GL & TL) & PA & K & IG). rewrite new_layer_type in TL. rewrite IL in IG.
  assert (F2 := fresh_after _ _ _ F IG). destruct (placed_checked _ _ _ _ _ _ F2 C2 A2) as [N2 E2 PA2 AC2 _ K2].
  destruct (K2 lk le GL) as (z & Z & TZ & PZ). split; [|exists z; split; [exact Z|congruence]]. split; auto.
  - destruct (get_elementdata d k) as [x|] eqn:G; [|reflexivity]. destruct (K k x G) as (y & Y & _). congruence.
  - intros _. exists ho, pe, z. split; [|split; [exact GP|split; [exact Z|]]].
    + unfold parent_of in *. rewrite Z. rewrite GL in PA. cbn in *. congruence.
    + rewrite TZ, TL. exact AC.
  - eapply kept_trans; eassumption.
Qed.

Lemma annotate_placed fuel d p e d1 k : reachable anything d -> fresh_for d e -> annotate fuel d p e = (d1, Ok k) ->
  exists q, placed d d1 k e q /\ (in_layer d p e -> exists qe t, get_elementdata d1 q = Some qe /\ et_annotationtype (e_type e) = Some t /\ at_layertype t = Some (e_type qe)) /\ (~ in_layer d p e -> q = p).
Proof.
  intros R F H. destruct (annotate_inv _ _ _ _ _ _ H) as [(_ & X)|[(X & NL)|(IL & h & t & lt & set & AT & LT & X & _)]]; [destruct (X k eq_refl)| |].
  - destruct (add_checked_inv _ _ _ _ _ _ X) as [(_ & Y)|(C & A)]; [destruct (Y k eq_refl)|]. exists p. split; [eapply placed_checked; eassumption|]. split; [contradiction|auto].
  - pose proof IL as (SP & _). apply group_in in SP. destruct (add_in_layer_inv _ _ _ _ _ _ _ _ _ _ SP AT LT X) as [(_ & Y)|[(lk & GL & C & A)|(_ & C & d2 & r2 & A & [(_ & _ & Y)|(lk & -> & C2 & A2)])]].
    + destruct (Y k eq_refl).
    + exists lk. pose proof (placed_checked _ _ _ _ _ _ F C A) as PL. split; [exact PL|]. split; [|contradiction]. intros _.
      destruct (layer_key_type _ _ _ _ _ _ _ R LT GL) as (qe & GQ & TQ). destruct (pl_kept _ _ _ _ _ PL lk qe GQ) as (y & Y & T & _). exists y, t. split; [exact Y|]. split; [exact AT|]. rewrite T, TQ. exact LT.
    + destruct r2; discriminate.
    + destruct (placed_after _ _ _ _ _ _ _ _ _ _ F C A C2 A2) as (PL & le & GL & TL). exists lk. split; [exact PL|]. split; [|contradiction]. intros _. exists le, t. rewrite TL. auto.
Qed.

(* Partial: for freshly built elements, whose IDs are not in use. What is nested in the added element is not validated
   by the library and not part of the claim. All other elements keep their type and parent. *)
Theorem C48_annotate_valid_partial : forall fuel d p e d1 k, reachable anything d -> fresh_for d e -> annotate fuel d p e = (d1, Ok k) -> exists q, placed d d1 k e q.
Proof. intros fuel d p e d1 k R F H. destruct (annotate_placed _ _ _ _ _ _ R F H) as (q & P & _). eauto. Qed.
Print Assumptions C48_annotate_valid_partial.
Theorem C48_annotate_span_valid_partial : forall fuel d e d1 k, reachable anything d -> fresh_for d e -> annotate_span fuel d e = (d1, Ok k) -> exists q, placed d d1 k e q.
Proof.
  intros fuel d e d1 k R F H. unfold annotate_span in H. destruct (negb _); [discriminate|]. destruct (get_span_keys d e); [discriminate|]. eapply C48_annotate_valid_partial; eassumption.
Qed.
Print Assumptions C48_annotate_span_valid_partial.
(* where it goes: a span annotated from a word or another structure element is put in a layer for its type, anything
   else directly under the element it is annotated from *)
Theorem C48_where_partial : forall fuel d p pe e d1 k, reachable anything d -> fresh_for d e -> get_elementdata d p = Some pe -> annotate fuel d p e = (d1, Ok k) ->
  exists q qe, parent_of d1 k = Some q /\ get_elementdata d1 q = Some qe /\
  (In (e_type e) (group_elementtypes EG_Span) -> p_wrefable (props (e_type pe)) = true \/ In (e_type pe) (group_elementtypes EG_Structure) ->
     exists t, et_annotationtype (e_type e) = Some t /\ at_layertype t = Some (e_type qe)) /\
  (~ In (e_type e) (group_elementtypes EG_Span) -> q = p).
Proof.
  intros fuel d p pe e d1 k R F G H. destruct (annotate_placed _ _ _ _ _ _ R F H) as (q & P & L & NL). destruct (pl_accepts _ _ _ _ _ P) as (qe & GQ & _).
  exists q, qe. split; [apply P|]. split; [exact GQ|]. split.
  - intros SP ST. destruct L as (qe' & t & GQ' & AT & LT); [split; [exact SP|exists pe; auto]|]. rewrite GQ in GQ'. injection GQ' as <-. eauto.
  - intros NS. apply NL. intros (X & _). contradiction.
Qed.
Print Assumptions C48_where_partial.
Example C48_nonvacuous : exists d1 d2, reachable anything ex_doc /\
  fresh_for ex_doc (ex_span "per" ["w.1"; "w.2"]%string) /\ annotate fuel1 ex_doc 10 (ex_span "per" ["w.1"; "w.2"]%string) = (d1, Ok 19) /\ parent_of d1 19 = Some 12 /\
  annotate fuel1 ex_new 0 ex_par = (d2, Ok 11) /\ parent_of d2 11 = Some 0.
Proof.
  eexists _, _. split; [exact ex_reachable_any|]. split; [apply freshb_spec; vm_compute; reflexivity|]. split; [vm_compute; reflexivity|]. split; [vm_compute; reflexivity|]. split; vm_compute; reflexivity.
Qed.
(* an element whose ID is taken: the stored element with that ID, of another type, is moved *)
Theorem C48_annotate_valid_refuted : exists d e p d1 k q ke qe, tidy d /\ new_element e /\ annotate fuel1 d p e = (d1, Ok k) /\ get_elementdata d1 k = Some ke /\
  parent_of d1 k = Some q /\ get_elementdata d1 q = Some qe /\ ~ may_contain (e_type qe) (e_type ke).
Proof.
  exists ex_doc, (e_attr ET_PosAnnotation [A_Id "s.1"; A_Class "n"; A_Set "posset"]), 3. eexists _, 10, 3, _, _. split; [exact ex_tidy|].
  split; [constructor; cbn; auto; intros c []|]. split; [vm_compute; reflexivity|]. split; [vm_compute; reflexivity|]. split; [vm_compute; reflexivity|]. split; [vm_compute; reflexivity|].
  intros H. apply accepts_type_spec in H. vm_compute in H. discriminate.
Qed.
Print Assumptions C48_annotate_valid_refuted.

(* ================================================================ C49 *)
(* Partial: for the errors that report that the element does not fit (validation) or that the place or set cannot be determined (incomplete). *)
Theorem C49_refused_unchanged_partial : forall fuel d p e d1 er, annotate fuel d p e = (d1, Err er) -> er = EValidation \/ er = EIncomplete -> d1 = d.
Proof.
  intros fuel d p e d1 er H E.
  assert (M : forall dd q x, add_element_to fuel dd q x = (d1, Err er) -> False).
  { intros dd q x A. pose proof (mild_add_element_to fuel dd q x) as (M1 & M2). rewrite A in M1, M2. cbn in *. destruct E as [-> | ->]; congruence. }
  destruct (annotate_inv _ _ _ _ _ _ H) as [(X & _)|[(X & NL)|((SP & IL) & h & t & lt & set & AT & LT & X & _)]]; [exact X| |].
  - destruct (add_checked_inv _ _ _ _ _ _ X) as [(Y & _)|(C & A)]; [exact Y|destruct (M _ _ _ A)].
  - apply group_in in SP. destruct (add_in_layer_inv _ _ _ _ _ _ _ _ _ _ SP AT LT X) as [(Y & _)|[(lk & GL & C & A)|(_ & C & d2 & r2 & A & [(_ & Y1 & Y2)|(lk & -> & C2 & A2)])]]; [exact Y|destruct (M _ _ _ A)| |destruct (M _ _ _ A2)].
    destruct r2 as [?|x| |]; try discriminate Y2. injection Y2 as <-. subst d2. destruct (M _ _ _ A).
Qed.
Print Assumptions C49_refused_unchanged_partial.
(* annotate_span also refuses what is not a span annotation *)
Theorem C49_span_refused_unchanged_partial : forall fuel d e d1 er, annotate_span fuel d e = (d1, Err er) ->
  er = EValidation \/ er = EIncomplete \/ ~ In (e_type e) (group_elementtypes EG_Span) -> d1 = d.
Proof.
  intros fuel d e d1 er H E. unfold annotate_span in H. destruct (group_contains EG_Span (e_type e)) eqn:SP; cbn [negb] in H; [|injection H as <- _; reflexivity].
  destruct (get_span_keys d e) as [|k l]; [injection H as <- _; reflexivity|]. destruct E as [E|[E|E]]; [eapply C49_refused_unchanged_partial; eauto|eapply C49_refused_unchanged_partial; eauto|].
  apply group_in in SP. contradiction.
Qed.
Print Assumptions C49_span_refused_unchanged_partial.
Example C49_nonvacuous : annotate fuel1 ex_doc 3 (e_new ET_Paragraph) = (ex_doc, Err EValidation) /\
  annotate fuel1 ex_doc 3 (e_attr ET_Chunk [A_Class "np"]) = (ex_doc, Err EIncomplete).
Proof. split; vm_compute; reflexivity. Qed.
(* a span that refers to an unknown word: the layer made for it stays behind, and so does the span *)
Theorem C49_failed_unchanged_refuted : exists d p e d1 er, tidy d /\ fresh_for d e /\ annotate fuel1 d p e = (d1, Err er) /\
  length (children_of d1 p) = S (length (children_of d p)).
Proof.
  exists ex_doc, 10, (e_add_element (e_attr ET_Chunk [A_Set "chunkset"; A_Class "np"]) (e_attr ET_WordReference [A_Idref "nowhere"])). eexists _, EParse. split; [exact ex_tidy|].
  split; [apply freshb_spec; vm_compute; reflexivity|]. split; vm_compute; reflexivity.
Qed.
Print Assumptions C49_failed_unchanged_refuted.

(* ================================================================ C50 *)
(* element k is a layer of type lt and set s *)
Definition layer_of (d : document) (lt : ElementType) (s : string) (k : nat) : Prop := exists x, get_elementdata d k = Some x /\ e_type x = lt /\ r_set d x = Ok (Some s).
Lemma layer_annotation t a lt : group_contains EG_Span t = true -> et_annotationtype t = Some a -> at_layertype a = Some lt -> exists b, et_annotationtype lt = Some b.
Proof. destruct t; vm_compute; try discriminate; intros _ H; injection H as <-; intros H; injection H as <-; eauto. Qed.
Lemma layer_group t a lt : group_contains EG_Span t = true -> et_annotationtype t = Some a -> at_layertype a = Some lt -> group_contains EG_Layer lt = true.
Proof. destruct t; vm_compute; try discriminate; intros _ H; injection H as <-; intros H; injection H as <-; reflexivity. Qed.
Lemma layer_key_first fuel d p pe t lt b s r : reachable normal d -> get_elementdata d p = Some pe -> at_layertype t = Some lt -> et_annotationtype lt = Some b ->
  get_layer_key fuel d p t (Some s) = Ok r -> first_such (layer_of d lt s) (e_data pe) r.
Proof.
  intros R G LT AB H. unfold get_layer_key in H. rewrite LT in H. cbn [ok_or rbind] in H. apply rbind_ok in H. destruct H as (sel & FQ & H). rewrite G in H.
  pose proof (normal_any _ R) as RA. destruct (reachable_ok _ _ anything_ok RA) as (((_ & K & _) & _) & _). pose proof (K p pe G) as KP. cbn in KP. rewrite KP in H. cbn [expect rbind] in H.
  apply rbind_ok in H. destruct H as (o & SF & H). assert (RO : r = o).
  { destruct o as [k|]; [|congruence]. injection H as <-. destruct (get_elementdata d k) as [x|] eqn:GX; [cbn; apply (K k x GX)|].
    apply first_matched in SF; [|reflexivity]. destruct SF as (_ & _ & _ & N). congruence. }
  subst o. clear H.
  assert (EQ : forall k x, get_elementdata d k = Some x -> (accepts d sel (DElement k) <-> layer_of d lt s k)).
  { intros k x GX. rewrite (C29_compiled_query_of_type_partial d _ sel lt b s k x R FQ eq_refl eq_refl AB (or_introl eq_refl) GX). split.
    - intros [S1 _ S3 _ _ _]. cbn in S1, S3. exists x. split; [exact GX|]. split; [congruence|]. destruct S3 as (v & V & M). cbn in M. congruence.
    - intros (x' & GX' & T & RS). rewrite GX in GX'. injection GX' as <-. destruct (reported _ _ _ R GX) as (n & _ & _ & _ & _ & _ & V0 & V1 & V2 & V3 & V4).
      constructor; [cbn; congruence|exact I|exists (Some s); split; [exact RS|reflexivity]|eexists; split; [exact V3|exact I]|eexists; split; [exact V4|exact I]|eexists; split; [exact V2|exact I]]. }
  assert (AC : forall k, accepts d sel (DElement k) <-> layer_of d lt s k).
  { intros k. destruct (get_elementdata d k) as [x|] eqn:GX; [apply (EQ k x GX)|]. split; [|intros (x & GX' & _); congruence].
    intros (a & _ & (_ & x & GX' & _)). congruence. }
  unfold select_first in SF.
  assert (F : first_such (fun k => accepts d sel (DElement k)) (e_data pe) r).
  { destruct (matchable sel) eqn:M.
    - change (e_data pe) with (skipn 0 (e_data pe)). eapply sel_first_flat; [|exact G| | | | |exact SF]; try reflexivity; [|right; auto].
      destruct (from_query_shape _ _ _ FQ) as (NX & DT & _). intros x bo MA. apply matches_spec in MA. destruct x; auto; (destruct bo; [|reflexivity]); exfalso; apply proj1 in MA; specialize (MA eq_refl);
      apply (accepts_alone _ _ _ NX) in MA; cbn in MA; try rewrite DT in MA; cbn in MA; intuition discriminate.
    - assert (r = None). { destruct fuel; [discriminate|]. cbn in SF. unfold sel_step in SF. cbn in SF. rewrite M in SF. cbn in SF. congruence. } subst r.
      apply first_such_none. intros x k _ _. apply matchable_spec in M. apply select_hopeless_accepts; [exact M|apply (from_query_shape _ _ _ FQ)]. }
  eapply first_such_ext; [|exact F]. intros x k _ _. apply AC.
Qed.

(* L is the first layer of type lt and set s that p lists, and what p lists before it exists *)
Definition first_layer (d : document) (p : nat) (lt : ElementType) (s : string) (L : nat) : Prop := exists pe pre x post, get_elementdata d p = Some pe /\
  e_data pe = pre ++ x :: post /\ item_key x = [L] /\ layer_of d lt s L /\ forall y k, In y pre -> item_key y = [k] -> get_elementdata d k <> None /\ ~ layer_of d lt s k.
Lemma first_layer_found d p lt s L pe : get_elementdata d p = Some pe -> first_layer d p lt s L -> first_such (layer_of d lt s) (e_data pe) (Some L).
Proof.
  intros G (pe' & pre & x & post & G' & D & I & LO & PR). rewrite G in G'. injection G' as <-. rewrite D. clear D. induction pre as [|y pre IH]; [apply fs_hit; assumption|].
  cbn. apply fs_skip; [intros k K; apply (PR y k); [left; reflexivity|exact K]|]. apply IH. intros z k Z. apply PR. right. exact Z.
Qed.
Lemma found_first_layer d p lt s L pe : get_elementdata d p = Some pe -> (forall y k, In y (e_data pe) -> item_key y = [k] -> get_elementdata d k <> None) ->
  first_such (layer_of d lt s) (e_data pe) (Some L) -> first_layer d p lt s L.
Proof.
  intros G EX F. exists pe.
  assert (X : exists pre x post, e_data pe = pre ++ x :: post /\ item_key x = [L] /\ layer_of d lt s L /\ forall y k, In y pre -> item_key y = [k] -> ~ layer_of d lt s k).
  { clear EX. remember (Some L) as o eqn:EO. induction F as [|x k l IK Q|x l r N F IH]; [discriminate| |].
    - injection EO as ->. exists [], x, l. split; [reflexivity|]. split; [exact IK|]. split; [exact Q|]. intros y k [].
    - destruct (IH EO) as (pre & z & post & D & IZ & LO & PR). exists (x :: pre), z, post. split; [cbn; rewrite D; reflexivity|]. split; [exact IZ|]. split; [exact LO|].
      intros y k [<-|Y]; [apply N|]. apply PR, Y. }
  destruct X as (pre & x & post & D & IK & LO & PR). exists pre, x, post. split; [exact G|]. split; [exact D|]. split; [exact IK|]. split; [exact LO|]. intros y k Y I. split; [|apply (PR y k Y I)].
  apply (EX y k); [|exact I]. rewrite D. apply in_app_iff. auto.
Qed.
Lemma below_len d k : get_elementdata d k <> None -> k < sh_len d.
Proof. apply sh_exists. Qed.
(* adding keeps what is a layer *)
Lemma layer_stays d d1 lt s k x : reachable normal d -> doc_le d d1 -> grows (sh_len d) d d1 -> get_elementdata d k = Some x -> (layer_of d1 lt s k <-> layer_of d lt s k).
Proof.
  intros R L GR G. assert (B : k < sh_len d) by (apply below_len; congruence). destruct (GR k x B G) as (y & l & GY & T & A & _).
  destruct (reachable_full _ R) as (_ & _ & _ & EO). specialize (EO _ _ G). destruct (report_le d d1 x y L EO T A) as (RS & _). unfold layer_of. split.
  - intros (z & GZ & TZ & RZ). rewrite GY in GZ. injection GZ as <-. exists x. split; [exact G|]. split; congruence.
  - intros (z & GZ & TZ & RZ). rewrite G in GZ. injection GZ as <-. exists y. split; [exact GY|]. split; congruence.
Qed.
Lemma first_layer_stays d d1 p lt s L : reachable normal d -> doc_le d d1 -> grows (sh_len d) d d1 -> first_layer d p lt s L -> first_layer d1 p lt s L.
Proof.
  intros R LE GR (pe & pre & x & post & G & D & IK & LO & PR). assert (B : p < sh_len d) by (apply below_len; congruence). destruct (GR p pe B G) as (pe1 & l & G1 & _ & _ & D1).
  exists pe1, pre, x, (post ++ l). split; [exact G1|]. split; [rewrite D1, D, <- app_assoc; reflexivity|]. split; [exact IK|]. split.
  - destruct LO as (y & GY & R0). apply (layer_stays d d1 lt s L y R LE GR GY). exists y. auto.
  - intros y k Y I. destruct (PR y k Y I) as (NN & NL). destruct (get_elementdata d k) as [z|] eqn:GZ; [|congruence]. rewrite (layer_stays d d1 lt s k z R LE GR GZ). split; [|exact NL].
    destruct (GR k z) as (z1 & _ & GZ1 & _); [apply below_len; congruence|exact GZ|]. congruence.
Qed.
Lemma added_facts fuel d p e d1 k : reachable normal d -> get_elementdata d p <> None -> fresh_for d e -> built e -> add_element_to fuel d p e = (d1, Ok k) ->
  reachable normal d1 /\ doc_le d d1 /\ grows (sh_len d) d d1 /\ ids_grow d d1 (ids_in e).
Proof.
  intros R P F B A. assert (RO : run_op fuel d (OAddElementTo p e) = (d1, Ok tt)) by (cbn; rewrite A; reflexivity).
  assert (R1 : reachable normal d1) by (eapply reach_op; [exact R| |exact RO|exact I]; exact B).
  split; [exact R1|]. split.
  - eapply (history_le normal d [OAddElementTo p e] d1 normal_ok R). eapply hist_cons; [|exact RO|exact I|apply hist_nil]. exact B.
  - split; [eapply grows_add_element_to; [apply below_len, P|exact F|exact A]|]. apply (added_to _ _ _ _ _ _ F P A).
Qed.
(* a layer that is made for p is listed last *)
Lemma layer_listed fuel d p pe lt s d1 k : group_contains EG_Layer lt = true -> get_elementdata d p = Some pe -> add_element_to fuel d p (new_layer lt (Some s)) = (d1, Ok k) ->
  exists pe1, get_elementdata d1 p = Some pe1 /\ e_data pe1 = e_data pe ++ [DElement k].
Proof.
  intros LG G H. destruct (fresh_for_layer lt (Some s) d) as (FL & _). fold (new_layer lt (Some s)) in FL. assert (PN : get_elementdata d p <> None) by congruence.
  assert (PL := below_len _ _ PN). destruct (C23_add_element_to_appends_tree _ _ _ _ _ _ PN FL H) as (NK & _).
  unfold add_element_to in H. apply sbind_ok in H. destruct H as (dA & x & A & H). cbn in A. injection A as <- <-.
  apply sbind_ok in H. destruct H as (dB & ck & B & H). apply sbind_ok in H. destruct H as (dC & u & C & H).
  apply sbind_ok in H. destruct H as (dD & v & D & H). apply sbind_ok in H. destruct H as (dE & w & E & H). injection H as -> ->. cbn in C. injection C as <-. cbn [fst] in B.
  pose proof (store_add_old d (new_layer lt (Some s)) (Some p) p pe G) as GB.
  assert (B' : store_add d (new_layer lt (Some s)) (Some p) = (dB, Ok k)).
  { unfold map_err in B. change (mkElem lt [A_Set s] [] None None) with (new_layer lt (Some s)) in B. destruct (store_add d (new_layer lt (Some s)) (Some p)) as [z [a| | |]]; try discriminate; exact B. }
  rewrite B' in GB. cbn [fst] in GB. destruct FL as (NE & ND & NI). assert (NI' : forall id, In id (ids_in (new_layer lt (Some s))) -> ~ has_id d id) by (intros id I; apply not_has_id, NI, I).
  destruct (add_one fuel d (new_layer lt (Some s)) d [] [] (Some p) dB k dB (all_adds_well _) eq_refl NE ND NI' B' eq_refl) as (EK & LC & FC & OC & RC & PC & XC & GC). rewrite sh_parent in PC.
  assert (KP : p <> k) by (intros ->; congruence).
  unfold attach_element in D. rewrite GB in D. unfold parent_of in PC. destruct (get_elementdata dB k) as [ke|] eqn:GK; [|discriminate]. cbn in PC. rewrite PC in D. injection D as <- <-.
  assert (GD : get_elementdata (upd_element (upd_element dB k (e_set_parent (Some p))) p (fun e => e_push e (DElement k))) p = Some (e_push pe (DElement k))).
  { rewrite get_upd_element, Nat.eqb_refl, get_upd_element. destruct (Nat.eqb_spec p k); [contradiction|]. rewrite GB. reflexivity. }
  set (dD := upd_element _ p _) in *. assert (X : get_elementdata d1 p = get_elementdata dD p); [|rewrite X, GD; exists (e_push pe (DElement k)); auto].
  unfold post_add in E. destruct (get_elementdata dD k) as [kd|] eqn:GKD; [|discriminate].
  assert (TK : e_type kd = lt).
  { unfold dD in GKD. rewrite get_upd_element in GKD. destruct (Nat.eqb_spec k p); [congruence|]. rewrite get_upd_element, Nat.eqb_refl, GK in GKD. injection GKD as <-. cbn.
    apply rb_renders, renders_eq in RC. destruct RC as (z & GZ & T & _). unfold sh in GZ. rewrite GK in GZ. injection GZ as <-. rewrite new_layer_type in T. exact T. }
  rewrite TK in E. destruct lt; try discriminate LG; destruct (group_contains EG_Layer _ && negb _); try (injection E as <- _; reflexivity);
    (destruct (layer_declaration fuel dD kd) as [[dk|]| | |]; cbn [sbind] in E; try discriminate; injection E as <- _; [|reflexivity]; rewrite get_upd_element; destruct (Nat.eqb_spec p k); [contradiction|reflexivity]).
Qed.

(* the set that a span annotation is added with: its own, or else the default set for its type *)
Definition chosen_set (d : document) (e : elementdata) (s : string) : Prop :=
  e_set e = Ok (Some s) \/ (e_set e = Ok None /\ exists t, et_annotationtype (e_type e) = Some t /\ get_default_set d t = Some s).
(* the type of layer for an element *)
Definition layer_type (e : elementdata) (lt : ElementType) : Prop := exists t, et_annotationtype (e_type e) = Some t /\ at_layertype t = Some lt.
(* everything element p refers to exists *)
Definition refers_well (d : document) (p : nat) : Prop := forall pe y k, get_elementdata d p = Some pe -> In y (e_data pe) -> item_key y = [k] -> get_elementdata d k <> None.
(* successful additions of fresh elements *)
Inductive additions : document -> document -> Prop :=
  | adds_none d : additions d d
  | adds_to fuel d p e d1 k d2 : get_elementdata d p <> None -> fresh_for d e -> built e -> add_element_to fuel d p e = (d1, Ok k) -> additions d1 d2 -> additions d d2
  | adds_annotate fuel d p e d1 k d2 : fresh_for d e -> built e -> annotate fuel d p e = (d1, Ok k) -> additions d1 d2 -> additions d d2.

Lemma layer_built lt s : built (new_layer lt (Some s)).
Proof. constructor; [|intros c []]. cbn. intros a [<-|[]]. cbn. auto. Qed.
Lemma annotate_facts fuel d p e d1 k : reachable normal d -> fresh_for d e -> built e -> annotate fuel d p e = (d1, Ok k) -> reachable normal d1 /\ doc_le d d1 /\ grows (sh_len d) d d1.
Proof.
  intros R F B H. assert (RO : run_op fuel d (OAnnotate p e) = (d1, Ok tt)) by (cbn; rewrite H; reflexivity).
  split; [eapply reach_op; [exact R| |exact RO|exact I]; exact B|]. split.
  { eapply (history_le normal d [OAnnotate p e] d1 normal_ok R). eapply hist_cons; [|exact RO|exact I|apply hist_nil]. exact B. }
  destruct (annotate_inv _ _ _ _ _ _ H) as [(_ & X)|[(X & NL)|(IL & h & t & lt & set & AT & LT & X & SE & SN & _)]]; [destruct (X k eq_refl)| |].
  - destruct (add_checked_inv _ _ _ _ _ _ X) as [(_ & Y)|(C & A)]; [destruct (Y k eq_refl)|]. apply check_exists in C. eapply grows_add_element_to; [apply below_len, C|exact F|exact A].
  - pose proof IL as (SP & _). apply group_in in SP. destruct (add_in_layer_inv _ _ _ _ _ _ _ _ _ _ SP AT LT X) as [(_ & Y)|[(lk & GL & C & A)|(_ & C & d2 & r2 & A & [(_ & _ & Y)|(lk & -> & C2 & A2)])]].
    + destruct (Y k eq_refl).
    + apply check_exists in C. eapply grows_add_element_to; [apply below_len, C|exact F|exact A].
    + destruct r2; discriminate.
    + destruct SE as [->|(s & -> & _)]; [congruence|]. destruct (fresh_for_layer lt (Some s) d) as (FL & IL'). fold (new_layer lt (Some s)) in FL, IL'. apply check_exists in C.
      destruct (added_facts _ _ _ _ _ _ R C FL (layer_built lt s) A) as (R2 & L2 & G2 & I2). rewrite IL' in I2. assert (F2 := fresh_after _ _ _ F I2). apply check_exists in C2.
      eapply grows_trans; [exact G2|]. eapply grows_less; [|eapply grows_add_element_to; [apply below_len, C2|exact F2|exact A2]].
      clear - A C FL. apply sh_exists in C. destruct (add_element_to_tree _ _ _ _ _ _ C FL A) as (_ & E & _). lia.
Qed.

Definition plain_structure (d : document) (p : nat) : Prop := exists pe, get_elementdata d p = Some pe /\ In (e_type pe) (group_elementtypes EG_Structure) /\ p_wrefable (props (e_type pe)) = false.
Lemma annotate_into fuel d p e d1 k lt s : plain_structure d p -> In (e_type e) (group_elementtypes EG_Span) -> layer_type e lt -> chosen_set d e s -> annotate fuel d p e = (d1, Ok k) ->
  exists t, et_annotationtype (e_type e) = Some t /\ at_layertype t = Some lt /\ add_in_layer fuel d p p t lt (Some s) e = (d1, Ok k).
Proof.
  intros (pe & G & ST & WR) SP (t & AT & LT) CS H. exists t. split; [exact AT|]. split; [exact LT|].
  destruct (annotate_inv _ _ _ _ _ _ H) as [(_ & X)|[(X & NL)|(IL & h & t' & lt' & set & AT' & LT' & X & SE & SN & HP)]]; [destruct (X k eq_refl)| |].
  - destruct NL. split; [exact SP|]. exists pe. auto.
  - rewrite AT in AT'. injection AT' as <-. rewrite LT in LT'. injection LT' as <-. rewrite (HP pe G WR) in X. destruct SE as [->|(s' & -> & SE)]; [congruence|].
    replace s with s'; [exact X|]. destruct SE as [E|(E & DS)], CS as [E'|(E' & t2 & AT2 & DS')]; congruence.
Qed.
Lemma annotate_known fuel d p e d1 k lt s L : reachable normal d -> fresh_for d e -> plain_structure d p -> In (e_type e) (group_elementtypes EG_Span) -> layer_type e lt -> chosen_set d e s ->
  first_layer d p lt s L -> annotate fuel d p e = (d1, Ok k) -> parent_of d1 k = Some L.
Proof.
  intros R F PS SP LY CS FL H. destruct (annotate_into _ _ _ _ _ _ _ _ PS SP LY CS H) as (t & AT & LT & X). apply group_in in SP. destruct (layer_annotation _ _ _ SP AT LT) as (b & AB).
  destruct PS as (pe & G & _). pose proof (first_layer_found _ _ _ _ _ _ G FL) as FS.
  destruct (add_in_layer_inv _ _ _ _ _ _ _ _ _ _ SP AT LT X) as [(_ & Y)|[(lk & GL & C & A)|(GL & _)]].
  - destruct (Y k eq_refl).
  - pose proof (layer_key_first _ _ _ _ _ _ _ _ _ R G LT AB GL) as FK. pose proof (first_such_det _ _ _ _ FS FK) as E. injection E as <-. apply (placed_checked _ _ _ _ _ _ F C A).
  - pose proof (layer_key_first _ _ _ _ _ _ _ _ _ R G LT AB GL) as FK. pose proof (first_such_det _ _ _ _ FS FK) as E. discriminate.
Qed.
Lemma annotate_finds fuel d p e d1 k lt s : reachable normal d -> fresh_for d e -> built e -> plain_structure d p -> refers_well d p -> In (e_type e) (group_elementtypes EG_Span) -> layer_type e lt ->
  chosen_set d e s -> annotate fuel d p e = (d1, Ok k) -> exists L, parent_of d1 k = Some L /\ first_layer d1 p lt s L.
Proof.
  intros R F BU PS RW SP LY CS H. destruct (annotate_into _ _ _ _ _ _ _ _ PS SP LY CS H) as (t & AT & LT & X). apply group_in in SP. destruct (layer_annotation _ _ _ SP AT LT) as (b & AB).
  destruct PS as (pe & G & _).
  destruct (add_in_layer_inv _ _ _ _ _ _ _ _ _ _ SP AT LT X) as [(_ & Y)|[(lk & GL & C & A)|(GL & C & d2 & r2 & A & [(_ & _ & Y)|(lk & -> & C2 & A2)])]].
  - destruct (Y k eq_refl).
  - pose proof (layer_key_first _ _ _ _ _ _ _ _ _ R G LT AB GL) as FK. exists lk. split; [apply (placed_checked _ _ _ _ _ _ F C A)|]. apply check_exists in C.
    destruct (added_facts _ _ _ _ _ _ R C F BU A) as (R1 & L1 & G1 & _). eapply first_layer_stays; [exact R|exact L1|exact G1|]. eapply found_first_layer; [exact G|intros y j; apply RW, G|exact FK].
  - destruct r2; discriminate.
  - pose proof (layer_key_first _ _ _ _ _ _ _ _ _ R G LT AB GL) as FK. destruct (fresh_for_layer lt (Some s) d) as (FL & IL). fold (new_layer lt (Some s)) in FL, IL.
    pose proof (check_exists _ _ _ _ C) as CE. destruct (added_facts _ _ _ _ _ _ R CE FL (layer_built lt s) A) as (R2 & L2 & G2 & I2). rewrite IL in I2. assert (F2 := fresh_after _ _ _ F I2).
    exists lk. split; [apply (placed_checked _ _ _ _ _ _ F2 C2 A2)|]. pose proof (check_exists _ _ _ _ C2) as CE2. destruct (added_facts _ _ _ _ _ _ R2 CE2 F2 BU A2) as (R1 & L1 & G1 & _).
    eapply first_layer_stays; [exact R2|exact L1|exact G1|]. destruct (layer_listed _ _ _ _ _ _ _ _ (layer_group _ _ _ SP AT LT) G A) as (pe2 & GP2 & D2).
    exists pe2, (e_data pe), (DElement lk), []. split; [exact GP2|]. split; [exact D2|]. split; [reflexivity|]. split.
    + destruct (C12_set_survives_partial fuel d (new_layer lt (Some s)) (Some p) d2 lk s R (layer_built lt s)) as (x & GX & T & RS).
      * unfold unique_types. cbn. constructor; [intros []|constructor].
      * intros id E. discriminate.
      * left. exists b. exact AB.
      * apply by_add_to, A.
      * left. reflexivity.
      * exists x. split; [exact GX|]. split; [exact T|exact RS].
    + intros y j Y I. assert (NJ := RW pe y j G Y I). destruct (get_elementdata d j) as [z|] eqn:GZ; [|congruence]. split.
      * destruct (G2 j z) as (z2 & _ & GZ2 & _); [apply below_len; congruence|exact GZ|]. congruence.
      * rewrite (layer_stays d d2 lt s j z R L2 G2 GZ). clear - FK Y I. remember (@None nat) as o eqn:EO. induction FK as [|x k l IK Q|x l r N FK IH]; [destruct Y|discriminate|].
        destruct Y as [<-|Y]; [apply N, I|apply IH; assumption].
Qed.
Lemma additions_keep d d1 : additions d d1 -> reachable normal d -> reachable normal d1 /\ kept d d1 /\ (forall p lt s L, first_layer d p lt s L -> first_layer d1 p lt s L) /\
  (forall p, plain_structure d p -> plain_structure d1 p).
Proof.
  assert (ST : forall d d1, grows (sh_len d) d d1 -> forall p, plain_structure d p -> plain_structure d1 p).
  { intros d0 d2 GR p (pe & G & A & B). destruct (GR p pe) as (y & _ & GY & T & _); [apply below_len; congruence|exact G|]. exists y. rewrite T. auto. }
  induction 1 as [d|fuel d p e d1 k d2 P F B A H IH|fuel d p e d1 k d2 F B A H IH]; intros R.
  - split; [exact R|]. split; [intros j x G; eauto|]. auto.
  - destruct (added_facts _ _ _ _ _ _ R P F B A) as (R1 & L1 & G1 & _). destruct (IH R1) as (R2 & K2 & FL2 & S2). split; [exact R2|]. split.
    + eapply kept_trans; [apply (added_to _ _ _ _ _ _ F P A)|exact K2].
    + split; [intros x1 x2 x3 x4 X; apply FL2; apply (first_layer_stays _ _ _ _ _ _ R L1 G1 X)|]. intros q Q. apply S2. apply (ST _ _ G1 q Q).
  - destruct (annotate_facts _ _ _ _ _ _ R F B A) as (R1 & L1 & G1). destruct (IH R1) as (R2 & K2 & FL2 & S2). split; [exact R2|]. split.
    + destruct (C48_annotate_valid_partial _ _ _ _ _ _ (normal_any _ R) F A) as (q & PL). eapply kept_trans; [apply PL|exact K2].
    + split; [intros x1 x2 x3 x4 X; apply FL2; apply (first_layer_stays _ _ _ _ _ _ R L1 G1 X)|]. intros q Q. apply S2. apply (ST _ _ G1 q Q).
Qed.

(* Partial: annotating from a structure element that is not a word (or another element that can be referred to by word
   references), with fresh elements, and only additions in between. *)
Theorem C50_shared_layer_partial : forall fuel1 fuel2 d p e1 d1 k1 d2 e2 d3 k2 lt s, reachable normal d -> plain_structure d p -> refers_well d p ->
  fresh_for d e1 -> built e1 -> In (e_type e1) (group_elementtypes EG_Span) -> layer_type e1 lt -> chosen_set d e1 s -> annotate fuel1 d p e1 = (d1, Ok k1) ->
  additions d1 d2 ->
  fresh_for d2 e2 -> built e2 -> In (e_type e2) (group_elementtypes EG_Span) -> layer_type e2 lt -> chosen_set d2 e2 s -> annotate fuel2 d2 p e2 = (d3, Ok k2) ->
  exists L, parent_of d3 k1 = Some L /\ parent_of d3 k2 = Some L /\ layer_of d3 lt s L.
Proof.
  intros f1 f2 d p e1 d1 k1 d2 e2 d3 k2 lt s R PS RW F1 B1 SP1 LY1 CS1 A1 AD F2 B2 SP2 LY2 CS2 A2.
  destruct (annotate_finds _ _ _ _ _ _ _ _ R F1 B1 PS RW SP1 LY1 CS1 A1) as (L & P1 & FL1). destruct (annotate_facts _ _ _ _ _ _ R F1 B1 A1) as (R1 & L1 & G1).
  destruct (additions_keep _ _ (adds_annotate _ _ _ _ _ _ _ F1 B1 A1 AD) R) as (R2 & _ & _ & PS2). destruct (additions_keep _ _ AD R1) as (_ & K2 & FL2 & _).
  specialize (FL2 _ _ _ _ FL1). exists L. destruct (annotate_facts _ _ _ _ _ _ R2 F2 B2 A2) as (R3 & L3 & G3).
  destruct (C48_annotate_valid_partial _ _ _ _ _ _ (normal_any _ R2) F2 A2) as (q & PL). split; [|split].
  - pose proof (kept_trans _ _ _ K2 (pl_kept _ _ _ _ _ PL)) as K3. unfold parent_of in *. destruct (get_elementdata d1 k1) as [x|] eqn:GX; [|discriminate]. destruct (K3 k1 x GX) as (y & GY & _ & PY). rewrite GY. cbn in *. congruence.
  - eapply annotate_known; [exact R2|exact F2|apply PS2, PS|exact SP2|exact LY2|exact CS2|exact FL2|exact A2].
  - destruct (first_layer_stays _ _ _ _ _ _ R2 L3 G3 FL2) as (_ & _ & _ & _ & _ & _ & _ & LO & _). exact LO.
Qed.
Print Assumptions C50_shared_layer_partial.

Definition ex_span2 : elementdata := ex_span "loc" ["w.2"; "w.3"]%string.
Example C50_nonvacuous : exists d1 d2, reachable normal ex_doc /\ plain_structure ex_doc 10 /\ refers_well ex_doc 10 /\ fresh_for ex_doc (ex_span "per" ["w.1"; "w.2"]%string) /\
  built (ex_span "per" ["w.1"; "w.2"]%string) /\ layer_type (ex_span "per" ["w.1"; "w.2"]%string) ET_EntitiesLayer /\ chosen_set ex_doc (ex_span "per" ["w.1"; "w.2"]%string) "entset" /\
  annotate fuel1 ex_doc 10 (ex_span "per" ["w.1"; "w.2"]%string) = (d1, Ok 19) /\ additions d1 d1 /\ fresh_for d1 ex_span2 /\ built ex_span2 /\ chosen_set d1 ex_span2 "entset" /\
  annotate fuel1 d1 10 ex_span2 = (d2, Ok 22) /\ parent_of d2 19 = Some 12 /\ parent_of d2 22 = Some 12.
Proof.
  eexists _, _. split; [exact ex_reachable|]. split; [eexists; split; [vm_compute; reflexivity|]; split; [vm_compute; tauto|vm_compute; reflexivity]|]. split.
  { intros pe y k G Y I. assert (X : forallb (fun y => match item_key y with [k] => match get_elementdata ex_doc k with Some _ => true | None => false end | _ => true end) (match get_elementdata ex_doc 10 with Some e => e_data e | None => [] end) = true) by (vm_compute; reflexivity).
    rewrite G in X. rewrite forallb_forall in X. specialize (X y Y). rewrite I in X. intros N. rewrite N in X. discriminate. }
  split; [apply freshb_spec; vm_compute; reflexivity|]. split; [apply elem_textualb_spec; vm_compute; reflexivity|]. split; [eexists; split; vm_compute; reflexivity|].
  split; [left; vm_compute; reflexivity|]. split; [vm_compute; reflexivity|]. split; [constructor|]. split; [apply freshb_spec; vm_compute; reflexivity|].
  split; [apply elem_textualb_spec; vm_compute; reflexivity|]. split; [left; vm_compute; reflexivity|]. split; [vm_compute; reflexivity|]. split; vm_compute; reflexivity.
Qed.
(* annotated from a word: the layer is looked up under the word but added to the sentence, so each call makes a new one *)
Theorem C50_shared_layer_refuted : exists d p e1 d1 k1 e2 d2 k2, tidy d /\ fresh_for d e1 /\ fresh_for d1 e2 /\ e_type e1 = e_type e2 /\ e_set e1 = e_set e2 /\
  annotate fuel1 d p e1 = (d1, Ok k1) /\ annotate fuel1 d1 p e2 = (d2, Ok k2) /\ parent_of d2 k1 <> parent_of d2 k2.
Proof.
  exists ex_doc, 3, (ex_span "per" ["w.1"; "w.2"]%string). eexists _, _, ex_span2, _, _. split; [exact ex_tidy|]. split; [apply freshb_spec; vm_compute; reflexivity|].
  split; [|split; [reflexivity|split; [reflexivity|split; [vm_compute; reflexivity|split; [vm_compute; reflexivity|]]]]].
  - apply freshb_spec; vm_compute; reflexivity.
  - vm_compute. discriminate.
Qed.
Print Assumptions C50_shared_layer_refuted.

(* ================================================================ C23: the elements that were there *)
(* adding a fresh element leaves type and attributes of every other element alone; what they contain (including the
   references from words to spans) is only extended at the end *)
Theorem C23_others_only_extended : forall fuel d p e d1 k, get_elementdata d p <> None -> fresh_for d e -> add_element_to fuel d p e = (d1, Ok k) ->
  forall j x, get_elementdata d j = Some x -> exists y l, get_elementdata d1 j = Some y /\ e_type y = e_type x /\ e_attribs y = e_attribs x /\ e_data y = e_data x ++ l.
Proof. intros fuel d p e d1 k P F A j x G. apply (grows_add_element_to _ _ _ _ _ _ (below_len _ _ P) F A j x); [apply below_len; congruence|exact G]. Qed.
Print Assumptions C23_others_only_extended.
