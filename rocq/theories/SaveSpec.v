(* Specification vocabulary: documents that can be loaded again after they were saved. *)
From Coq Require Import String List Bool Arith NArith.
From Verif Require Import Base Types SpecTable Attrib Element Store Metadata Document Spec WellSpec RoundSpec.
Import ListNotations.
Open Scope list_scope.

(* no element has two values for one attribute *)
Definition single_attributes (d : document) : Prop := forall k e, get_elementdata d k = Some e -> NoDup (map attribtype (filter plain_value (e_attribs e))).
(* a feature is only in an element that has an annotation type *)
Definition features_placed (d : document) : Prop := forall k e c f, get_elementdata d k = Some e -> In (DElement c) (e_data e) ->
  get_elementdata d c = Some f -> e_type f = ET_Feature -> et_annotationtype (e_type e) <> None.
Definition own_id (e : elementdata) : list string := match e_id e with Some id => [id] | None => [] end.
(* [backward open ids l ids']: in the content l of elements of types [open] (innermost first), each word reference is
   somewhere in a span annotation and refers to IDs that come before it in document order, given that the IDs [ids] come
   before l; [ids'] are the IDs before what follows l. *)
Inductive backward (d : document) : list ElementType -> list string -> list datatype -> list string -> Prop :=
  | back_nil open ids : backward d open ids [] ids
  | back_data open ids x l ids' : (forall c, x <> DElement c) -> backward d open ids l ids' -> backward d open ids (x :: l) ids'
  | back_child open ids c e l ids1 ids2 : get_elementdata d c = Some e -> backward d (e_type e :: open) (own_id e ++ ids) (e_data e) ids1 ->
      (e_type e = ET_WordReference -> refers open ids1 (e_attribs e)) ->
      backward d open ids1 l ids2 -> backward d open ids (DElement c :: l) ids2.
(* none of these processors has a date *)
Definition undated (d : document) (l : list nat) : Prop := forall k p, In k l -> get_processor d k = Some p -> pr_begin p = None /\ pr_end p = None.
