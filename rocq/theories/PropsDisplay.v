(* Formatting values with "{}" (C73) *)
From Coq Require Import String List Bool Arith NArith Lia.
From Verif Require Import Base Types SpecTable Attrib Element Store Metadata Document Select DocOps Text Display History BaseFacts TypesFacts StoreFacts
  AttribFacts Spec FrameFacts InvFacts DocFacts Examples StoreThms PropsLinks Returns TextSpec TextFacts PropsPanic PropsText PropsTypes.
Import ListNotations.
Open Scope string_scope.
Open Scope list_scope.

(* The full claim: formatting any value of a type that can be formatted gives its text: for a type the name it has in a
   file, for an attribute the value it has in a file, for an element its text. Proved for element types, annotation types
   and processor types; for attributes that are neither encoded nor ignored; and for elements that have text. Refuted for
   encoded attributes, for elements without text, and for every attribute type. *)

(* a name, from which the type can be read back *)
Theorem C73_element_type_partial : forall t, exists s, formatted (et_fmt t) = Ok s /\ forall t', et_from_str s = Some t' <-> t' = t.
Proof.
  intros t. exists (et_as_str t). split; [reflexivity|]. intros t'. rewrite C42_tag_parses_back. split; [congruence|intros ->; reflexivity].
Qed.
Print Assumptions C73_element_type_partial.
Theorem C73_annotation_type_partial : forall t, exists s, formatted (at_fmt t) = Ok s /\ forall t', at_from_str s = Some t' <-> t' = t.
Proof.
  intros t. exists (at_as_str t). split; [reflexivity|]. intros t'. rewrite C43_name_parses_back. split; [congruence|intros ->; reflexivity].
Qed.
Print Assumptions C73_annotation_type_partial.
Theorem C73_processor_type_partial : forall O t, exists s, formatted (pt_fmt t) = Ok s /\
  parse_attrib O "annotatortype" (Some s) = Ok (A_AnnotatorType t).
Proof. intros O t. exists (pt_as_str t). split; [reflexivity|]. destruct t; reflexivity. Qed.
Print Assumptions C73_processor_type_partial.

(* attributes: the value, from which the attribute can be read back *)
Theorem C73_attribute_partial : forall O a, a <> A_Ignore -> decodable a = false ->
  exists s, formatted (a_fmt O a) = Ok s /\ (attr_in_range O a -> parse_attrib O (ab_as_str (attribtype a)) (Some s) = Ok a).
Proof.
  intros O a N D. destruct (display_ok O a N D) as (s & H). exists s. unfold formatted, a_fmt. rewrite H. cbn [rbind expect]. split; [reflexivity|].
  intros R. apply (C45_print_parse O a s R H).
Qed.
Print Assumptions C73_attribute_partial.
Theorem C73_encoded_attribute_panics : forall O a, (a = A_Ignore \/ decodable a = true) <-> formatted (a_fmt O a) = Panic.
Proof.
  intros O a. rewrite (display_total O). unfold formatted, a_fmt. split.
  - intros ->. reflexivity.
  - intros H. destruct (a_display O a) as [s| | |]; cbn [rbind expect] in H; congruence.
Qed.
Print Assumptions C73_encoded_attribute_panics.

(* elements: the text with the default parameters, if there is one *)
Lemma doc_text_at f d k e tp : get_elementdata d k = Some e -> doc_text f d k tp = element_text f d e tp.
Proof. intros G. unfold doc_text. rewrite G. reflexivity. Qed.
Theorem C73_element_partial : forall d k e t, get_elementdata d k = Some e ->
  ((exists fuel, formatted (element_fmt fuel d e) = Ok t) <-> text_is d k tp_default t).
Proof.
  intros d k e t G. unfold text_is. split; intros (f & H); exists f; [rewrite (doc_text_at _ _ _ _ _ G)|rewrite (doc_text_at _ _ _ _ _ G) in H];
    unfold formatted, element_fmt in *; destruct (element_text f d e tp_default); cbn [rbind expect] in *; congruence.
Qed.
Print Assumptions C73_element_partial.
(* where text() returns an error, formatting panics, and formatting returns nothing but the text or this panic *)
Theorem C73_element_panics : forall d k e, reachable anything d -> text_acyclic d -> get_elementdata d k = Some e ->
  ((exists fuel, formatted (element_fmt fuel d e) = Panic) <-> text_fails d k tp_default) /\
  exists n v, (forall fuel, n <= fuel -> formatted (element_fmt fuel d e) = v) /\ ((exists t, v = Ok t) \/ v = Panic).
Proof.
  intros d k e R AC G. destruct (C37_text_returns d k tp_default R AC ltac:(discriminate) ltac:(discriminate)) as (n & v & A & B).
  assert (NP : forall f, element_text f d e tp_default <> Panic).
  { intros f H. rewrite <- (doc_text_at f d k e tp_default G) in H.
    assert (Z : doc_text (n + f) d k tp_default = Panic).
    { rewrite (doc_text_at _ _ _ _ _ G). rewrite (doc_text_at _ _ _ _ _ G) in H. revert H. unfold element_text. destruct (get_declaration_key_by_id d _); [|auto].
      destruct (expect _) as [c| | |]; cbn [rbind]; auto. destruct (doc_class_key _ _ _) as [ck| | |]; cbn [rbind]; auto. intros H.
      rewrite <- H. apply text_mono; [lia|]. rewrite H. discriminate. }
    rewrite (A (n + f)) in Z by lia. destruct B as [(t & ->)|(x & ->)]; discriminate. }
  split.
  - unfold text_fails. split.
    + intros (f & H). unfold formatted, element_fmt in H. specialize (NP f). exists f. rewrite (doc_text_at _ _ _ _ _ G).
      destruct (element_text f d e tp_default) as [s|x| |]; cbn [rbind expect] in H; try discriminate; [eauto|congruence].
    + intros (f & x & H). exists f. rewrite (doc_text_at _ _ _ _ _ G) in H. unfold formatted, element_fmt. rewrite H. reflexivity.
  - destruct B as [(t & ->)|(x & ->)]; eexists n, _; (split; [intros f L; specialize (A f L); rewrite (doc_text_at _ _ _ _ _ G) in A; unfold formatted, element_fmt; rewrite A; reflexivity|]);
      cbn [rbind expect]; eauto.
Qed.
Print Assumptions C73_element_panics.

Example C73_nonvacuous :
  formatted (et_fmt ET_Word) = Ok "w" /\ formatted (at_fmt AT_POS) = Ok "pos" /\ formatted (pt_fmt PT_DataSource) = Ok "datasource" /\
  (forall O, formatted (a_fmt O (A_Space false)) = Ok "no") /\ reachable anything ex_doc /\ text_acyclic ex_doc /\
  exists e, get_elementdata ex_doc 10 = Some e /\ formatted (element_fmt fuel1 ex_doc e) = Ok "hello cruel world".
Proof.
  do 3 (split; [reflexivity|]). split; [intros O; reflexivity|]. split; [exact ex_reachable_any|]. split; [apply acyclicb_spec; vm_compute; reflexivity|].
  eexists. split; [vm_compute; reflexivity|]. vm_compute. reflexivity.
Qed.

(* An element without text cannot be formatted: a part-of-speech annotation of a document in normal use. *)
Theorem C73_element_refuted : exists d k e, reachable normal d /\ get_elementdata d k = Some e /\ e_type e = ET_PosAnnotation /\
  exists fuel, formatted (element_fmt fuel d e) = Panic.
Proof.
  exists ex_doc, 2. eexists. split; [exact ex_reachable|]. split; [vm_compute; reflexivity|]. split; [reflexivity|]. exists fuel1. vm_compute. reflexivity.
Qed.
Print Assumptions C73_element_refuted.
(* Nor can the class of a stored element. *)
Theorem C73_attribute_refuted : exists d k e a, reachable normal d /\ get_elementdata d k = Some e /\ In a (e_attribs e) /\
  attribtype a = AB_CLASS /\ forall O, formatted (a_fmt O a) = Panic.
Proof.
  exists ex_doc, 2. eexists. exists (A_ClassRef 0). split; [exact ex_reachable|]. split; [vm_compute; reflexivity|]. split; [vm_compute; auto|]. split; reflexivity.
Qed.
Print Assumptions C73_attribute_refuted.
(* Formatting an attribute type never returns. *)
Theorem C73_attribute_type_refuted : forall fuel t, formatted (ab_fmt fuel t) = OutOfFuel.
Proof. intros fuel t. induction fuel as [|f IH]; [reflexivity|exact IH]. Qed.
Print Assumptions C73_attribute_type_refuted.
