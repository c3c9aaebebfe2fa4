(* Properties C12 - C15, C17: what happens to the set, class, subset, processor and the other attributes of an
   element when it is added, and what the stored element reports afterwards.
   [added fuel d e ctx d1 k] (EncodeFacts.v): adding e to d by Store::add (with a context element ctx), add_element
   or add_element_to (ctx is then the parent) succeeded with document d1 and key k.
   [reachable normal d]: d was made by Document::new or by loading, then changed by any operations whose element
   arguments carry no raw references (History.v). r_set, r_class, ... (Document.v) are the accessors of elements. *)
From Coq Require Import String List Bool Arith NArith Lia.
From Verif Require Import Base BaseFacts Types TypesFacts SpecTable Attrib AttribFacts Element Store StoreFacts Metadata Document Select DocOps Xml Parser History FrameFacts InvFacts DocFacts StoreThms InternFacts EncodeFacts Examples.
Import ListNotations.
Open Scope list_scope.

(* element values without raw references, at any depth *)
Definition built (e : elementdata) : Prop := elem_all (fun _ l => textual l) e.

Lemma in_encodable e a : In a (e_attribs e) -> a_encodable a = true -> e_encodable e = true.
Proof. intros I E. apply existsb_exists. eauto. Qed.
Lemma pick_set_in e s : unique_types (e_attribs e) -> In (A_Set s) (e_attribs e) -> first_pick pick_set (e_attribs e) = Some s.
Proof. intros U I. eapply (first_pick_unique pick_set AB_SET); [exact U|exact I|reflexivity|reflexivity|]. intros [] y; cbn; congruence. Qed.
Lemma pick_class_in e s : unique_types (e_attribs e) -> In (A_Class s) (e_attribs e) -> first_pick pick_class (e_attribs e) = Some s.
Proof. intros U I. eapply (first_pick_unique pick_class AB_CLASS); [exact U|exact I|reflexivity|reflexivity|]. intros [] y; cbn; congruence. Qed.
Lemma pick_subset_in e s : unique_types (e_attribs e) -> In (A_Subset s) (e_attribs e) -> first_pick pick_subset (e_attribs e) = Some s.
Proof. intros U I. eapply (first_pick_unique pick_subset AB_SUBSET); [exact U|exact I|reflexivity|reflexivity|]. intros [] y; cbn; congruence. Qed.
Lemma pick_processor_in e s : unique_types (e_attribs e) -> In (A_Processor s) (e_attribs e) -> first_pick pick_processor (e_attribs e) = Some s.
Proof. intros U I. eapply (first_pick_unique pick_processor AB_PROCESSOR); [exact U|exact I|reflexivity|reflexivity|]. intros [] y; cbn; congruence. Qed.
Lemma pick_processor_none e : (forall s, ~ In (A_Processor s) (e_attribs e)) -> first_pick pick_processor (e_attribs e) = None.
Proof. intros H. apply first_pick_none. intros a I. destruct a; try reflexivity. destruct (H _ I). Qed.

(* ================================================================ C12 *)
(* [room d1]: no class, subset or feature-class vocabulary of the resulting document is full (u32 / u16 keys). *)
Definition annotated (e : elementdata) : Prop :=
  (exists t, et_annotationtype (e_type e) = Some t) \/ (e_type e = ET_Feature /\ exists x, In (A_Subset x) (e_attribs e)).

Lemma values_survive fuel d e ctx d1 k : full_ok d -> built e -> unique_types (e_attribs e) ->
  fresh_id d e -> annotated e -> added fuel d e ctx d1 k ->
  exists e1, get_elementdata d1 k = Some e1 /\
    (forall s, In (A_Set s) (e_attribs e) -> r_set d1 e1 = Ok (Some s)) /\
    (room d1 -> forall c, In (A_Class c) (e_attribs e) -> r_class d1 e1 = Ok (Some c)) /\
    (room d1 -> forall x, e_type e = ET_Feature -> In (A_Subset x) (e_attribs e) -> r_subset d1 e1 = Ok (Some x)) /\
    (forall id p, In (A_Processor id) (e_attribs e) -> get_processor_key_by_id d id = Some p -> r_processor d1 e1 = Ok (Some id)) /\
    (~ bare_layer e \/ e_encodable e = true -> forall c, r_class d1 e1 = Ok (Some c) -> e_type e = ET_Feature \/ In (A_Class c) (e_attribs e)).
Proof.
  intros F T U FR AN A.
  destruct (added_spec _ _ _ _ _ _ F T FR A) as (dA & l & n & e1 & FA & LA & AA & AP & L1 & G & TY & KE & AT & RO & EC & A1 & P1).
  exists e1. split; [exact G|].
  assert (RR : room d1 -> room dA) by (intros RM; eapply room_le; [apply FA|exact L1|exact RM]).
  assert (PL : Forall plain (filter (fun a => negb (a_encodable a)) (e_attribs e))) by (apply plain_filter; inversion T; assumption).
  assert (EN : forall a, In a (e_attribs e) -> a_encodable a = true ->
    e_attribs e1 = filter (fun a => negb (a_encodable a)) (e_attribs e) ++ refs n /\ exists t dk dec, described dA d1 (e_with_data e l) n t dk dec /\
       (e_type e = ET_Feature \/ e_type e <> ET_Feature /\ en_subset n = None) /\
       (forall id pk, first_pick pick_processor (e_attribs e) = Some id -> get_processor_key_by_id dA id = Some pk -> en_proc n = Some pk)).
  { intros a I X. pose proof (in_encodable e a I X) as E. split; [apply AT; right; exact E|].
    destruct EC as [EN _ Hn|t dk dec EN AT' DS NS _ XP _|pk parent t dk dec EN FT _ _ _ DS _ XP _|EN AT' NF _ _ _ _ _ _].
    - change (e_encodable (e_with_data e l)) with (e_encodable e) in EN. congruence.
    - exists t, dk, dec. split; [exact DS|]. split; [right|exact XP]. split; [|exact NS]. intros FT. cbn in AT'. rewrite FT in AT'. discriminate.
    - exists t, dk, dec. split; [exact DS|]. split; [left; exact FT|exact XP].
    - cbn in AT', NF. destruct AN as [(t & Q)|(Q & _)]; [congruence|contradiction]. }
  split; [|split; [|split; [|split]]].
  - intros s I. destruct (EN _ I eq_refl) as (EA & t & dk & dec & DS & _). rewrite (rep_set d1 e1 _ n EA PL).
    rewrite (ds_dec _ _ _ _ _ _ _ DS). cbn. rewrite (ds_get _ _ _ _ _ _ _ DS). cbn.
    f_equal. apply (ds_set _ _ _ _ _ _ _ DS). apply pick_set_in; assumption.
  - intros RM c I. pose proof (RR RM) as RA. destruct (EN _ I eq_refl) as (EA & t & dk & dec & DS & ST & _). rewrite (rep_class d1 e1 _ n EA PL).
    rewrite (ds_dec _ _ _ _ _ _ _ DS). cbn [obind]. rewrite (ds_get _ _ _ _ _ _ _ DS). cbn [obind].
    destruct (ds_class_room _ _ _ _ _ _ _ DS c) as (ck & CK); [apply pick_class_in; assumption|exact RA|].
    destruct (ds_class _ _ _ _ _ _ _ DS _ CK) as (c' & PC & VC). rewrite CK. cbn [obind]. change (e_attribs (e_with_data e l)) with (e_attribs e) in PC.
    rewrite (pick_class_in e c U I) in PC. inversion PC; subst c'. change (e_type (e_with_data e l)) with (e_type e) in VC. unfold class_vocab in VC.
    destruct ST as [FT|(NF & NS)].
    + rewrite FT in VC. cbn in VC. destruct AN as [(t' & Q)|(_ & x & IX)]; [rewrite FT in Q; discriminate|].
      destruct (ds_subset_room _ _ _ _ _ _ _ DS x FT (pick_subset_in e x U IX) RA) as (sk & SK). rewrite SK, VC. reflexivity.
    + rewrite NS. destruct (et_eqb_spec (e_type e) ET_Feature); [contradiction|]. cbn in VC. rewrite VC. reflexivity.
  - intros RM x FT I. pose proof (RR RM) as RA. destruct (EN _ I eq_refl) as (EA & t & dk & dec & DS & ST & _). rewrite (rep_subset d1 e1 _ n EA PL).
    rewrite (ds_dec _ _ _ _ _ _ _ DS). cbn [obind]. rewrite (ds_get _ _ _ _ _ _ _ DS). cbn [obind].
    destruct (ds_subset_room _ _ _ _ _ _ _ DS x FT (pick_subset_in e x U I) RA) as (sk & SK).
    destruct (ds_subset _ _ _ _ _ _ _ DS _ SK) as (_ & x' & PX & VX). rewrite SK. cbn [obind]. change (e_attribs (e_with_data e l)) with (e_attribs e) in PX.
    rewrite (pick_subset_in e x U I) in PX. inversion PX; subst x'. rewrite VX. reflexivity.
  - intros id p I K. destruct (EN _ I eq_refl) as (EA & t & dk & dec & DS & ST & XP). rewrite (rep_proc d1 e1 _ n EA PL).
    rewrite (XP id p (pick_processor_in e id U I)); [|unfold get_processor_key_by_id in *; rewrite AP; exact K].
    destruct (procs_index d id p (proj1 F) K) as (q & GQ & ID). cbn. unfold get_processor in *. rewrite P1, GQ. cbn. congruence.
  - intros NB c RC. destruct (et_eqb_spec (e_type e) ET_Feature) as [FT|NF]; [left; exact FT|right]. destruct (e_encodable e) eqn:EE.
    + apply existsb_exists in EE. destruct EE as (a & I & X). destruct (EN a I X) as (EA & t & dk & dec & DS & ST & _). rewrite (rep_class d1 e1 _ n EA PL) in RC.
      rewrite (ds_dec _ _ _ _ _ _ _ DS) in RC. cbn [obind] in RC. rewrite (ds_get _ _ _ _ _ _ _ DS) in RC. cbn [obind] in RC.
      destruct (en_class n) as [ck|] eqn:CK; [|discriminate]. cbn [obind] in RC. destruct (ds_class _ _ _ _ _ _ _ DS _ CK) as (c' & PC & VC).
      change (e_type (e_with_data e l)) with (e_type e) in VC. unfold class_vocab in VC. destruct ST as [FT|(_ & NS)]; [contradiction|]. rewrite NS in RC.
      destruct (et_eqb_spec (e_type e) ET_Feature); [contradiction|]. cbn in VC. rewrite VC in RC. injection RC as <-.
      apply first_pick_some in PC. destruct PC as (b & J & B). destruct b; try discriminate B. injection B as ->. exact J.
    + assert (HN : n = no_refs) by (destruct EC as [_ _ Hn|? ? ? EN1|? ? ? ? ? EN1|EN1]; [exact Hn| | |]; change (e_encodable (e_with_data e l)) with (e_encodable e) in EN1; congruence).
      destruct NB as [NB|NB]; [|congruence]. rewrite (rep_class d1 e1 _ n (AT (or_introl NB)) PL), HN in RC. discriminate.
Qed.
Theorem C12_values_survive_partial : forall fuel d e ctx d1 k, reachable normal d -> built e -> unique_types (e_attribs e) ->
  fresh_id d e -> annotated e -> room d1 -> added fuel d e ctx d1 k ->
  exists e1, get_elementdata d1 k = Some e1 /\
    (forall s, In (A_Set s) (e_attribs e) -> r_set d1 e1 = Ok (Some s)) /\
    (forall c, In (A_Class c) (e_attribs e) -> r_class d1 e1 = Ok (Some c)) /\
    (forall x, e_type e = ET_Feature -> In (A_Subset x) (e_attribs e) -> r_subset d1 e1 = Ok (Some x)) /\
    (forall id p, In (A_Processor id) (e_attribs e) -> get_processor_key_by_id d id = Some p -> r_processor d1 e1 = Ok (Some id)).
Proof.
  intros fuel d e ctx d1 k R T U FR AN RM A. destruct (values_survive fuel d e ctx d1 k (reachable_full _ R) T U FR AN A) as (e1 & G & H1 & H2 & H3 & H4 & _).
  exists e1. auto 8.
Qed.
Print Assumptions C12_values_survive_partial.

(* the set survives whatever the size of the vocabularies *)
Theorem C12_set_survives_partial : forall fuel d e ctx d1 k s, reachable normal d -> built e -> unique_types (e_attribs e) ->
  fresh_id d e -> annotated e -> added fuel d e ctx d1 k -> In (A_Set s) (e_attribs e) ->
  exists e1, get_elementdata d1 k = Some e1 /\ e_type e1 = e_type e /\ r_set d1 e1 = Ok (Some s).
Proof.
  intros fuel d e ctx d1 k s R T U FR AN A I. pose proof (reachable_full _ R) as F.
  destruct (added_spec _ _ _ _ _ _ F T FR A) as (dA & l & n & e1 & FA & LA & AA & AP & L1 & G & TY & KE & AT & RO & EC & A1 & P1).
  exists e1. split; [exact G|]. split; [exact TY|].
  assert (PL : Forall plain (filter (fun a => negb (a_encodable a)) (e_attribs e))) by (apply plain_filter; inversion T; assumption).
  pose proof (in_encodable e _ I eq_refl) as E. assert (EA := AT (or_intror E)).
  assert (X : exists t dk dec, described dA d1 (e_with_data e l) n t dk dec).
  { destruct EC as [EN _ Hn|t dk dec EN AT' DS NS _ XP _|pk parent t dk dec EN FT _ _ _ DS _ XP _|EN AT' NF _ _ _ _ _ _].
    - change (e_encodable (e_with_data e l)) with (e_encodable e) in EN. congruence.
    - exists t, dk, dec. exact DS.
    - exists t, dk, dec. exact DS.
    - cbn in AT', NF. destruct AN as [(t & Q)|(Q & _)]; [congruence|contradiction]. }
  destruct X as (t & dk & dec & DS). rewrite (rep_set d1 e1 _ n EA PL), (ds_dec _ _ _ _ _ _ _ DS). cbn. rewrite (ds_get _ _ _ _ _ _ _ DS). cbn.
  f_equal. apply (ds_set _ _ _ _ _ _ _ DS). apply pick_set_in; assumption.
Qed.
Print Assumptions C12_set_survives_partial.

(* Element types without annotation type (other than features) lose these attributes without an error. *)
Theorem C12_unannotated_refuted : exists d e d1 k e1, reachable normal d /\ built e /\
  add_element_to fuel1 d 2 e = (d1, Ok k) /\ get_elementdata d1 k = Some e1 /\
  In (A_Set "someset") (e_attribs e) /\ r_set d1 e1 = Ok None /\ In (A_Class "someclass") (e_attribs e) /\ r_class d1 e1 = Ok None.
Proof.
  exists ex_doc, (e_attr ET_ListItem [A_Set "someset"; A_Class "someclass"]). eexists _, 17, _. split; [exact ex_reachable|].
  split; [apply elem_textualb_spec; vm_compute; reflexivity|].
  split; [vm_compute; reflexivity|]. split; [vm_compute; reflexivity|]. split; [cbn; auto|]. split; [vm_compute; reflexivity|]. split; [cbn; auto|]. vm_compute; reflexivity.
Qed.
Print Assumptions C12_unannotated_refuted.

Definition ex_feat : elementdata := e_attr ET_Feature [A_Subset "tense"; A_Class "past"; A_Set "posset"].
Definition ex_pos2 : elementdata := e_attr ET_PosAnnotation [A_Class "verb"; A_Processor "proc2"; A_Set "posset2"; A_Id "x.1"].
Example C12_nonvacuous : exists d1 d2, reachable normal ex_doc /\ built ex_feat /\ built ex_pos2 /\ unique_types (e_attribs ex_feat) /\
  unique_types (e_attribs ex_pos2) /\ fresh_id ex_doc ex_feat /\ fresh_id ex_doc ex_pos2 /\ annotated ex_feat /\ annotated ex_pos2 /\
  room d1 /\ room d2 /\ added fuel1 ex_doc ex_pos2 (Some 3) d1 17 /\ added fuel1 d1 ex_feat (Some 17) d2 18 /\
  get_processor_key_by_id ex_doc "proc2" = Some 1.
Proof.
  set (d1 := fst (add_element_to fuel1 ex_doc 3 ex_pos2)). set (d2 := fst (add_element_to fuel1 d1 17 ex_feat)).
  exists d1, d2. split; [exact ex_reachable|].
  assert (RM : forall d, forallb (fun o => match o with Some dec => N.leb (v_size VClass dec) u16_max && N.leb (v_size VSubset dec) u16_max && N.leb (v_size VSubclass dec) u16_max | None => true end) (st_items (doc_decls d)) = true -> room d).
  { intros d H dk dec v G. rewrite forallb_forall in H. unfold get_declaration, st_get in G. destruct (nth_error (st_items (doc_decls d)) dk) as [o|] eqn:N; [|discriminate]. subst o.
    apply nth_error_In in N. specialize (H _ N). cbn beta iota in H. apply andb_true_iff in H. destruct H as (H & H3). apply andb_true_iff in H. destruct H as (H1 & H2).
    apply N.leb_le in H1, H2, H3. assert (u16_max <= u32_max)%N by (vm_compute; discriminate). destruct v; cbn [v_limit]; lia. }
  split; [apply elem_textualb_spec; vm_compute; reflexivity|]. split; [apply elem_textualb_spec; vm_compute; reflexivity|].
  split; [unfold unique_types; cbn; repeat (constructor; [cbn; intros H; repeat (destruct H as [H|H]; [discriminate H|]); exact H|]); constructor|].
  split; [unfold unique_types; cbn; repeat (constructor; [cbn; intros H; repeat (destruct H as [H|H]; [discriminate H|]); exact H|]); constructor|].
  split; [intros id H; discriminate|]. split.
  { intros id H. injection H as <-. split; [vm_compute; reflexivity|]. intros c N. inversion N as [x y I|x y z NN I]; destruct I. }
  split; [right; split; [reflexivity|eexists; left; reflexivity]|]. split; [left; eexists; reflexivity|].
  split; [apply RM; vm_compute; reflexivity|]. split; [apply RM; vm_compute; reflexivity|].
  split; [apply by_add_to; vm_compute; reflexivity|]. split; [apply by_add_to; vm_compute; reflexivity|]. vm_compute; reflexivity.
Qed.

(* ================================================================ C13 *)
(* What an element reports never changes, whatever operations follow, unless it is a layer without set (which may
   be given one) or, for its class, a feature without subset. *)
Theorem C13_values_do_not_drift_partial : forall d k e l d2, reachable normal d -> get_elementdata d k = Some e ->
  history normal d l d2 -> ~ bare_layer e ->
  exists e2, get_elementdata d2 k = Some e2 /\ r_set d2 e2 = r_set d e /\ r_subset d2 e2 = r_subset d e /\
    r_processor d2 e2 = r_processor d e /\ r_annotator d2 e2 = r_annotator d e /\ r_annotatortype d2 e2 = r_annotatortype d e /\
    e_id e2 = e_id e /\ (~ bare_feature e -> r_class d2 e2 = r_class d e).
Proof.
  intros d k e l d2 R G H NB. pose proof (history_le _ _ _ _ normal_ok R H) as L.
  destruct (doc_le_elem _ _ _ _ L G) as (e2 & G2 & [K1 K2 K3]). exists e2. split; [exact G2|].
  destruct (reachable_full _ R) as (_ & _ & _ & EO). specialize (EO _ _ G). apply report_le; try assumption.
  destruct K3 as [K3|((RL & _) & NS)]; [exact K3|]. exfalso. apply NB. split; [congruence|exact NS].
Qed.
Print Assumptions C13_values_do_not_drift_partial.

(* A layer with an ID but without set: adding a sentence that contains a layer with the same ID gives the stored
   layer a set and takes its ID away. *)
Definition drift_doc1 : document := fst (add_element_to fuel1 ex_doc 10 (e_attr ET_EntitiesLayer [A_Id "L"])).
Definition drift_ops : list op :=
  [ OAddElementTo 17 (e_attr ET_Entity [A_Set "entset"; A_Class "loc"]);
    OAddElementTo 11 (e_add_element (e_attr ET_Sentence [A_Id "s.2"]) (e_attr ET_EntitiesLayer [A_Id "L"])) ].
Theorem C13_layer_drift_refuted : exists d k e l d2 e2, reachable normal d /\ get_elementdata d k = Some e /\
  history normal d l d2 /\ get_elementdata d2 k = Some e2 /\
  e_id e = Some "L"%string /\ e_id e2 = None /\ r_set d e = Ok None /\ r_set d2 e2 = Ok (Some "entset"%string).
Proof.
  set (d2 := match exec fuel1 drift_doc1 drift_ops with Some d => d | None => drift_doc1 end).
  assert (X : exec fuel1 drift_doc1 drift_ops = Some d2) by (vm_compute; reflexivity).
  exists drift_doc1, 17. eexists _, drift_ops, d2, _.
  split; [|split; [vm_compute; reflexivity|split; [exact (exec_history _ _ _ _ X)|split; [vm_compute; reflexivity|split; [vm_compute; reflexivity|split; [vm_compute; reflexivity|split; vm_compute; reflexivity]]]]]].
  apply (exec_reachable fuel1 [OAddElementTo 10 (e_attr ET_EntitiesLayer [A_Id "L"])] ex_doc); [exact ex_reachable|vm_compute; reflexivity].
Qed.
Print Assumptions C13_layer_drift_refuted.

(* A feature with a class but no subset reports whatever class of the declaration happens to have the same key. *)
Definition ex_bare_feat : elementdata := e_attr ET_Feature [A_Class "x"; A_Set "newset"].
Definition drift_doc3 : document := fst (add_element_to fuel1 ex_doc 2 ex_bare_feat).
Definition drift_ops2 : list op := [ OAddElementTo 3 (e_attr ET_PosAnnotation [A_Set "newset"; A_Class "unrelated"]) ].
Theorem C13_feature_class_drift_refuted : exists d k e l d2 e2, reachable normal d /\ get_elementdata d k = Some e /\
  history normal d l d2 /\ get_elementdata d2 k = Some e2 /\ e_type e = ET_Feature /\
  r_class d e = Ok None /\ r_class d2 e2 = Ok (Some "unrelated"%string).
Proof.
  set (d2 := match exec fuel1 drift_doc3 drift_ops2 with Some d => d | None => drift_doc3 end).
  assert (X : exec fuel1 drift_doc3 drift_ops2 = Some d2) by (vm_compute; reflexivity).
  exists drift_doc3, 17. eexists _, drift_ops2, d2, _.
  split; [|split; [vm_compute; reflexivity|split; [exact (exec_history _ _ _ _ X)|split; [vm_compute; reflexivity|split; [vm_compute; reflexivity|split; vm_compute; reflexivity]]]]].
  apply (exec_reachable fuel1 [OAddElementTo 2 ex_bare_feat] ex_doc); [exact ex_reachable|vm_compute; reflexivity].
Qed.
Print Assumptions C13_feature_class_drift_refuted.

Example C13_nonvacuous : exists e d2, get_elementdata ex_doc 2 = Some e /\ ~ bare_layer e /\ ~ bare_feature e /\
  r_class ex_doc e = Ok (Some "int"%string) /\ r_set ex_doc e = Ok (Some "posset"%string) /\ r_processor ex_doc e = Ok (Some "proc1"%string) /\
  history normal ex_doc [OActivate 1; OAnnotate 6 (e_attr ET_PosAnnotation [A_Set "posset"; A_Class "new"])] d2.
Proof.
  eexists _, _. split; [vm_compute; reflexivity|]. split; [intros (H & _); discriminate H|]. split; [intros (H & _); discriminate H|].
  split; [vm_compute; reflexivity|]. split; [vm_compute; reflexivity|]. split; [vm_compute; reflexivity|].
  eapply (exec_history fuel1). vm_compute. reflexivity.
Qed.

(* ================================================================ C14 *)
(* the attributes other than set, class, subset and processor *)
Definition other (a : Attribute) : bool :=
  match attribtype a with AB_SET | AB_CLASS | AB_SUBSET | AB_PROCESSOR => false | _ => true end.
Lemma filter_app_other l r : (forall a, In a r -> decodable a = true) ->
  filter other (filter (fun a => negb (a_encodable a)) l ++ r) = filter other l.
Proof.
  intros H. rewrite filter_app. replace (filter other r) with (@nil Attribute).
  - rewrite app_nil_r. induction l as [|a l IH]; [reflexivity|]. cbn [filter]. destruct a; cbn [a_encodable negb filter other attribtype]; rewrite ?IH; reflexivity.
  - symmetry. induction r as [|a r IH]; [reflexivity|]. cbn [filter]. assert (D : decodable a = true) by (apply H; left; reflexivity).
    destruct a; try discriminate D; cbn [other attribtype]; apply IH; intros b I; apply H; right; exact I.
Qed.
(* Store::add, for all element values whatever *)
Theorem C14_other_attributes_kept_by_store : forall d e ctx d1 k, reachable anything d ->
  (forall id, e_id e = Some id -> get_element_key_by_id d id = None) -> store_add d e ctx = (d1, Ok k) ->
  exists e1, get_elementdata d1 k = Some e1 /\ filter other (e_attribs e1) = filter other (e_attribs e).
Proof.
  intros d e ctx d1 k R N H. assert (R1 : history anything d1 [] d1) by constructor.
  destruct (new_element_kept d e ctx d1 k [] d1 R N H R1) as (e1 & G & _ & _ & _ & _ & (r & E & D) & _).
  exists e1. split; [exact G|]. rewrite E. apply filter_app_other, D.
Qed.
Print Assumptions C14_other_attributes_kept_by_store.
(* a layer with none of set, class, subset and processor *)
Definition unnamed_layer (t : ElementType) (l : list Attribute) : Prop := group_contains EG_Layer t = true /\ forall a, In a l -> other a = true.
Lemma unnamed_layer_dec t l : unnamed_layer t l \/ ~ unnamed_layer t l.
Proof.
  unfold unnamed_layer. destruct (group_contains EG_Layer t); [|right; intros (Q & _); discriminate]. destruct (forallb other l) eqn:A.
  - left. split; [reflexivity|]. apply forallb_forall, A.
  - right. intros (_ & Q). apply forallb_forall in Q. congruence.
Qed.
Lemma named_layer t l : textual l -> ~ unnamed_layer t l -> group_contains EG_Layer t = true -> exists a, In a l /\ a_encodable a = true.
Proof.
  intros T N L. destruct (existsb a_encodable l) eqn:E; [apply existsb_exists in E; exact E|]. exfalso. apply N. split; [exact L|]. intros a I.
  pose proof (T a I) as D. destruct (a_encodable a) eqn:X; [|destruct a; try reflexivity; discriminate]. assert (Q : existsb a_encodable l = true) by (apply existsb_exists; eauto). congruence.
Qed.
Lemma named_cases e : textual (e_attribs e) -> ~ unnamed_layer (e_type e) (e_attribs e) -> ~ bare_layer e \/ e_encodable e = true.
Proof.
  intros T N. destruct (group_contains EG_Layer (e_type e)) eqn:L; [|left; intros (Q & _); congruence]. destruct (named_layer _ _ T N L) as (a & I & X). right. apply existsb_exists. eauto.
Qed.
(* all ways to add, whatever is nested, unless the element is a layer without set, class, subset and processor *)
Theorem C14_other_attributes_kept_partial : forall fuel d e ctx d1 k, reachable normal d -> built e -> fresh_id d e ->
  ~ unnamed_layer (e_type e) (e_attribs e) -> added fuel d e ctx d1 k ->
  exists e1, get_elementdata d1 k = Some e1 /\ filter other (e_attribs e1) = filter other (e_attribs e).
Proof.
  intros fuel d e ctx d1 k R T FR NB A. pose proof (reachable_full _ R) as F. apply named_cases in NB; [|inversion T; assumption].
  destruct (added_spec _ _ _ _ _ _ F T FR A) as (dA & l & n & e1 & _ & _ & _ & _ & _ & G & _ & _ & AT & _).
  exists e1. split; [exact G|]. rewrite (AT NB). apply filter_app_other. intros a I. unfold refs, opt_attr in I.
  rewrite !in_app_iff in I. destruct (en_dec n), (en_class n), (en_proc n), (en_subset n); cbn in I; decompose [or] I; subst; try reflexivity; contradiction.
Qed.
Print Assumptions C14_other_attributes_kept_partial.
(* and later operations keep all attributes *)
Theorem C14_attributes_stay_partial : forall d k e l d2, reachable anything d -> get_elementdata d k = Some e -> history anything d l d2 ->
  ~ bare_layer e -> exists e2, get_elementdata d2 k = Some e2 /\ e_attribs e2 = e_attribs e.
Proof.
  intros d k e l d2 R G H NB. pose proof (history_le _ _ _ _ anything_ok R H) as L.
  destruct (doc_le_elem _ _ _ _ L G) as (e2 & G2 & [K1 K2 K3]). exists e2. split; [exact G2|].
  destruct K3 as [K3|((RL & _) & NS)]; [exact K3|]. exfalso. apply NB. split; [congruence|exact NS].
Qed.
Print Assumptions C14_attributes_stay_partial.
(* add_element_to drops all attributes of a layer without set when it contains an annotation with a set *)
Definition ex_bare_layer : elementdata :=
  e_add_element (e_attr ET_EntitiesLayer [A_Id "layer.1"; A_N "7"]) (e_attr ET_Entity [A_Set "entset"; A_Class "loc"]).
Theorem C14_other_attributes_kept_refuted : exists d e d1 k e1, reachable normal d /\ built e /\ fresh_id d e /\
  add_element_to fuel1 d 10 e = (d1, Ok k) /\ get_elementdata d1 k = Some e1 /\
  filter other (e_attribs e) = [A_Id "layer.1"; A_N "7"] /\ filter other (e_attribs e1) = [].
Proof.
  exists ex_doc, ex_bare_layer. eexists _, 18, _. split; [exact ex_reachable|]. split; [apply elem_textualb_spec; vm_compute; reflexivity|].
  split; [|split; [vm_compute; reflexivity|split; [vm_compute; reflexivity|split; vm_compute; reflexivity]]].
  intros id H. injection H as <-. split; [vm_compute; reflexivity|]. intros c N. inversion N as [x y I|x y z NN I]; subst.
  - destruct I as [I|[]]. injection I as <-. discriminate.
  - destruct I as [I|[]]. injection I as <-. inversion NN as [? ? J|? ? ? ? J]; destruct J.
Qed.
Print Assumptions C14_other_attributes_kept_refuted.
Example C14_nonvacuous : exists d1 e1, added fuel1 ex_doc (e_attr ET_PosAnnotation [A_Id "x.1"; A_Class "c"; A_N "3"; A_Set "posset"; A_Confidence 9]) (Some 3) d1 17 /\
  get_elementdata d1 17 = Some e1 /\ filter other (e_attribs e1) = [A_Id "x.1"; A_N "3"; A_Confidence 9].
Proof. eexists _, _. split; [apply by_add_to; vm_compute; reflexivity|]. split; vm_compute; reflexivity. Qed.

(* ================================================================ C15 *)
(* All accessors return. Key references lead to stored items; the declaration has the annotation type of the element. *)
Theorem C15_accessors_return : forall d k e, reachable normal d -> get_elementdata d k = Some e ->
  (exists s c b p a t, r_set d e = Ok s /\ r_class d e = Ok c /\ r_subset d e = Ok b /\ r_processor d e = Ok p /\
     r_annotator d e = Ok a /\ r_annotatortype d e = Ok t) /\
  (exists ck sk dk pk, r_class_key e = Ok ck /\ r_subset_key e = Ok sk /\ r_declaration_key e = Ok dk /\ r_processor_key e = Ok pk) /\
  (exists dec p, r_declaration d e = Ok dec /\ r_processor_data d e = Ok p).
Proof.
  intros d k e R G. destruct (reachable_full _ R) as (_ & _ & _ & EO). destruct (EO _ _ G) as (p & n & A & F & RO).
  rewrite (rep_set d e p n A F), (rep_class d e p n A F), (rep_subset d e p n A F), (rep_proc d e p n A F), (rep_annotator d e p n A F),
    (rep_annotatortype d e p n A F), (rep_class_key e p n A F), (rep_subset_key e p n A F), (rep_dec e p n A F), (rep_proc_key e p n A F), (rep_declaration d e p n A F), (rep_proc_data d e p n A F).
  split; [|split]; repeat eexists.
Qed.
Print Assumptions C15_accessors_return.
Theorem C15_references_resolve : forall d k e, reachable normal d -> get_elementdata d k = Some e ->
  (forall dk, r_declaration_key e = Ok (Some dk) -> exists dec, get_declaration d dk = Some dec /\ r_declaration d e = Ok (Some dec) /\
     forall t, et_annotationtype (e_type e) = Some t -> d_type dec = t) /\
  (forall ck, r_class_key e = Ok (Some ck) -> exists dk dec c, r_declaration_key e = Ok (Some dk) /\ get_declaration d dk = Some dec /\
     (if et_eqb (e_type e) ET_Feature then d_get_subclass dec ck else d_get_class dec ck) = Some c) /\
  (forall sk, r_subset_key e = Ok (Some sk) -> exists dk dec c, r_declaration_key e = Ok (Some dk) /\ get_declaration d dk = Some dec /\
     d_get_subset dec sk = Some c /\ r_subset d e = Ok (Some c)) /\
  (forall pk, r_processor_key e = Ok (Some pk) -> exists p, get_processor d pk = Some p /\ r_processor d e = Ok (Some (pr_id p))).
Proof.
  intros d k e R G. destruct (reachable_full _ R) as (_ & _ & _ & EO). destruct (EO _ _ G) as (p & n & A & F & [R1 R2 R3 R4]).
  rewrite (rep_subset d e p n A F), (rep_proc d e p n A F),
    (rep_class_key e p n A F), (rep_subset_key e p n A F), (rep_dec e p n A F), (rep_proc_key e p n A F), (rep_declaration d e p n A F).
  split; [|split; [|split]].
  - intros dk H. inversion H as [E]. destruct (R1 dk E) as (dec & GD & TD). exists dec. split; [exact GD|]. rewrite E. cbn. rewrite GD. auto.
  - intros ck H. inversion H as [E]. destruct (R2 ck E) as (dk & dec & c & E1 & GD & V). exists dk, dec, c. rewrite E1. auto.
  - intros sk H. inversion H as [E]. destruct (R4 sk E) as (_ & dk & dec & c & E1 & GD & V). exists dk, dec, c. rewrite E1, E. cbn. rewrite GD. cbn. rewrite V. auto.
  - intros pk H. inversion H as [E]. destruct (R3 pk E) as (q & GQ). exists q. rewrite E. cbn. rewrite GQ. auto.
Qed.
Print Assumptions C15_references_resolve.
(* only features and elements of a type that can be declared refer to a declaration; the processor of such an element is listed with that declaration *)
Theorem C15_references_agree : forall d k e dk dec, reachable normal d -> get_elementdata d k = Some e -> r_declaration_key e = Ok (Some dk) -> get_declaration d dk = Some dec ->
  (e_type e = ET_Feature \/ et_annotationtype (e_type e) = Some (d_type dec)) /\
  forall pk, r_processor_key e = Ok (Some pk) -> In pk (d_processors dec).
Proof.
  intros d k e dk dec R G ED GD. destruct (reachable_full _ R) as (_ & _ & _ & EO). destruct (EO _ _ G) as (p & n & A & F & [R1 R2 R3 R4 R5 R6]).
  rewrite (rep_dec e p n A F) in ED. injection ED as ED. rewrite (rep_proc_key e p n A F). split.
  - destruct R5 as [T|T]; [congruence|left; exact T|]. destruct (et_annotationtype (e_type e)) as [t|] eqn:AT; [|congruence]. right. destruct (R1 dk ED) as (dec' & GD' & TD). rewrite GD in GD'. injection GD' as <-. rewrite (TD t eq_refl). reflexivity.
  - intros pk EP. injection EP as EP. destruct (R6 pk dk EP ED) as (dec' & GD' & I). rewrite GD in GD'. injection GD' as <-. exact I.
Qed.
Print Assumptions C15_references_agree.
(* the class accessor finds the class, except on a feature without subset *)
Theorem C15_class_resolves_partial : forall d k e ck, reachable normal d -> get_elementdata d k = Some e -> ~ bare_feature e ->
  r_class_key e = Ok (Some ck) -> exists c, r_class d e = Ok (Some c).
Proof.
  intros d k e ck R G NB H. destruct (reachable_full _ R) as (_ & _ & _ & EO). destruct (EO _ _ G) as (p & n & A & F & [R1 R2 R3 R4]).
  rewrite (rep_class_key e p n A F) in H. inversion H as [E]. rewrite (rep_class d e p n A F), E. cbn [obind].
  destruct (R2 ck E) as (dk & dec & c & E1 & GD & V). rewrite E1. cbn [obind]. rewrite GD. cbn [obind]. exists c.
  destruct (en_subset n) as [sk|] eqn:ES.
  - destruct (R4 sk eq_refl) as (FT & _). rewrite FT in V. cbn in V. rewrite V. reflexivity.
  - destruct (et_eqb_spec (e_type e) ET_Feature) as [FT|NF]; [|rewrite V; reflexivity].
    exfalso. apply NB. split; [exact FT|]. destruct e as [ty a da ke pa]. cbn in A. subst a. rewrite (has_subset_refs p n F), ES. reflexivity.
Qed.
Print Assumptions C15_class_resolves_partial.
Theorem C15_class_resolves_refuted : exists d k e ck, reachable normal d /\ get_elementdata d k = Some e /\
  r_class_key e = Ok (Some ck) /\ r_class d e = Ok None.
Proof.
  exists drift_doc3, 17. eexists _, 0. split; [|split; [vm_compute; reflexivity|split; vm_compute; reflexivity]].
  apply (exec_reachable fuel1 [OAddElementTo 2 ex_bare_feat] ex_doc); [exact ex_reachable|vm_compute; reflexivity].
Qed.
Print Assumptions C15_class_resolves_refuted.
Example C15_nonvacuous : exists e, get_elementdata ex_doc 2 = Some e /\ ~ bare_feature e /\ r_class_key e = Ok (Some 0) /\
  r_declaration_key e = Ok (Some 3) /\ r_processor_key e = Ok (Some 0) /\ r_annotator ex_doc e = Ok (Some "tagger"%string).
Proof. eexists. split; [vm_compute; reflexivity|]. split; [intros (H & _); discriminate H|]. vm_compute. auto. Qed.

(* ================================================================ C17 *)
Theorem C17_explicit_processor : forall fuel d e ctx d1 k id pk, reachable normal d -> built e -> unique_types (e_attribs e) ->
  fresh_id d e -> added fuel d e ctx d1 k ->
  In (A_Processor id) (e_attribs e) -> get_processor_key_by_id d id = Some pk ->
  exists e1, get_elementdata d1 k = Some e1 /\ r_processor_key e1 = Ok (Some pk) /\ r_processor d1 e1 = Ok (Some id) /\
    (forall dec, r_declaration d1 e1 = Ok (Some dec) -> In pk (d_processors dec)) /\
    (forall t, et_annotationtype (e_type e) = Some t -> exists dec, r_declaration d1 e1 = Ok (Some dec) /\ d_type dec = t).
Proof.
  intros fuel d e ctx d1 k id pk R T U FR A I K. pose proof (reachable_full _ R) as F.
  destruct (added_spec _ _ _ _ _ _ F T FR A) as (dA & l & n & e1 & FA & LA & AA & AP & L1 & G & TY & KE & AT & RO & EC & A1 & P1).
  pose proof (in_encodable e _ I eq_refl) as E. specialize (AT (or_intror E)).
  assert (PL : Forall plain (filter (fun a => negb (a_encodable a)) (e_attribs e))) by (apply plain_filter; inversion T; assumption).
  exists e1. split; [exact G|]. rewrite (rep_proc_key e1 _ n AT PL), (rep_proc d1 e1 _ n AT PL), (rep_declaration d1 e1 _ n AT PL).
  pose proof (pick_processor_in e id U I) as PI. assert (KA : get_processor_key_by_id dA id = Some pk) by (unfold get_processor_key_by_id in *; rewrite AP; exact K).
  destruct (procs_index d id pk (proj1 F) K) as (q & GQ & ID).
  assert (EP : en_proc n = Some pk).
  { destruct EC as [EN _ Hn|t dk dec EN AT' DS NS _ XP _|pk' parent t dk dec EN FT _ _ _ DS _ XP _|EN AT' NF _ _ _ _ XP _];
      [change (e_encodable (e_with_data e l)) with (e_encodable e) in EN; congruence| | |]; apply (XP id pk PI KA). }
  rewrite EP. split; [reflexivity|]. split; [cbn; unfold get_processor in *; rewrite P1, GQ; cbn; congruence|]. split.
  - intros dec H. destruct EC as [EN _ Hn|t dk dec' EN AT' DS NS IN XP _|pk' parent t dk dec' EN FT _ _ _ DS IN XP _|EN AT' NF _ ED _ _ XP _].
    + change (e_encodable (e_with_data e l)) with (e_encodable e) in EN; congruence.
    + rewrite (ds_dec _ _ _ _ _ _ _ DS) in H. cbn in H. rewrite (ds_get _ _ _ _ _ _ _ DS) in H. inversion H; subst. apply IN, EP.
    + rewrite (ds_dec _ _ _ _ _ _ _ DS) in H. cbn in H. rewrite (ds_get _ _ _ _ _ _ _ DS) in H. inversion H; subst. apply IN, EP.
    + rewrite ED in H. discriminate.
  - intros t TT. destruct EC as [EN _ Hn|t' dk dec' EN AT' DS NS IN XP _|pk' parent t' dk dec' EN FT _ _ _ DS IN XP _|EN AT' NF _ ED _ _ XP _].
    + change (e_encodable (e_with_data e l)) with (e_encodable e) in EN; congruence.
    + exists dec'. rewrite (ds_dec _ _ _ _ _ _ _ DS). cbn. rewrite (ds_get _ _ _ _ _ _ _ DS). split; [reflexivity|].
      rewrite (ds_type _ _ _ _ _ _ _ DS). cbn in AT'. congruence.
    + cbn in FT. rewrite FT in TT. discriminate.
    + cbn in AT'. congruence.
Qed.
Print Assumptions C17_explicit_processor.
(* Without a processor of its own: the only processor of the declaration, else the active one, else none. The element
   must have at least one of set, class, subset or processor, else it gets no declaration and no processor at all. *)
Theorem C17_default_processor_partial : forall fuel d e ctx d1 k t, reachable normal d -> built e ->
  fresh_id d e -> added fuel d e ctx d1 k -> et_annotationtype (e_type e) = Some t ->
  (forall id, ~ In (A_Processor id) (e_attribs e)) -> e_encodable e = true ->
  exists e1 dec, get_elementdata d1 k = Some e1 /\ r_declaration d1 e1 = Ok (Some dec) /\ d_type dec = t /\
    r_processor_key e1 = Ok (match d_processors dec with [p] => Some p | _ => doc_active d end) /\
    (forall pk, r_processor_key e1 = Ok (Some pk) -> In pk (d_processors dec)).
Proof.
  intros fuel d e ctx d1 k t R T FR A TT NP E. pose proof (reachable_full _ R) as F.
  destruct (added_spec _ _ _ _ _ _ F T FR A) as (dA & l & n & e1 & FA & LA & AA & AP & L1 & G & TY & KE & AT & RO & EC & A1 & P1).
  specialize (AT (or_intror E)).
  assert (PL : Forall plain (filter (fun a => negb (a_encodable a)) (e_attribs e))) by (apply plain_filter; inversion T; assumption).
  destruct EC as [EN _ Hn|t' dk dec' EN AT' DS NS IN XP XN|pk' parent t' dk dec' EN FT _ _ _ DS IN XP _|EN AT' NF _ ED _ _ XP _].
  - change (e_encodable (e_with_data e l)) with (e_encodable e) in EN; congruence.
  - exists e1, dec'. split; [exact G|]. rewrite (rep_declaration d1 e1 _ n AT PL), (rep_proc_key e1 _ n AT PL).
    rewrite (ds_dec _ _ _ _ _ _ _ DS). cbn [obind]. rewrite (ds_get _ _ _ _ _ _ _ DS). split; [reflexivity|].
    split; [rewrite (ds_type _ _ _ _ _ _ _ DS); cbn in AT'; congruence|]. split; [|intros pk H; inversion H as [Q]; apply IN, Q].
    rewrite XN; [rewrite AA; reflexivity|]. intros id PI. change (e_attribs (e_with_data e l)) with (e_attribs e) in PI. rewrite (pick_processor_none e NP) in PI. discriminate.
  - cbn in FT. rewrite FT in TT. discriminate.
  - cbn in AT'. congruence.
Qed.
Print Assumptions C17_default_processor_partial.
Theorem C17_default_processor_refuted : exists d e d1 k e1 pk, reachable normal d /\ add_element_to fuel1 d 11 e = (d1, Ok k) /\
  get_elementdata d1 k = Some e1 /\ et_annotationtype (e_type e) <> None /\ doc_active d = Some pk /\ r_processor_key e1 = Ok None.
Proof.
  exists ex_doc, (e_attr ET_Sentence [A_Id "s.2"]). eexists _, 17, _, 1. split; [exact ex_reachable|]. split; [vm_compute; reflexivity|].
  split; [vm_compute; reflexivity|]. split; [discriminate|]. split; vm_compute; reflexivity.
Qed.
Print Assumptions C17_default_processor_refuted.
Example C17_nonvacuous : exists d1 d2 e1 e2,
  added fuel1 ex_doc ex_pos2 (Some 3) d1 17 /\ get_elementdata d1 17 = Some e1 /\ r_processor_key e1 = Ok (Some 1) /\
  added fuel1 ex_doc (ex_pos "z") (Some 6) d2 17 /\ get_elementdata d2 17 = Some e2 /\ r_processor_key e2 = Ok (Some 0) /\ doc_active ex_doc = Some 1.
Proof.
  eexists _, _, _, _. split; [apply by_add_to; vm_compute; reflexivity|]. split; [vm_compute; reflexivity|]. split; [vm_compute; reflexivity|].
  split; [apply by_add_to; vm_compute; reflexivity|]. split; [vm_compute; reflexivity|]. split; vm_compute; reflexivity.
Qed.
