(* Specification vocabulary for the links between words and the span annotations over them. Only the stored elements are
   looked at. *)
From Coq Require Import String List Bool Arith NArith.
From Verif Require Import Base Types SpecTable Attrib Element Store Metadata Document Spec.
Import ListNotations.
Open Scope list_scope.

(* the span annotations that an element says it is part of, in the order of its content *)
Definition span_refs (e : elementdata) : list nat := flat_map (fun x => match x with DSpanReference s => [s] | _ => [] end) (e_data e).
(* the ID that a word reference refers to: the last one if there are several *)
Definition idref (e : elementdata) : option string := last (map Some (flat_map (fun a => match a with A_Idref s => [s] | _ => [] end) (e_attribs e))) None.
(* w is a word reference, and k the element it refers to *)
Definition refers (d : document) (w k : nat) : Prop :=
  exists e id, get_elementdata d w = Some e /\ e_type e = ET_WordReference /\ idref e = Some id /\ get_element_key_by_id d id = Some k.
Definition is_span (d : document) (k : nat) (b : bool) : Prop := exists e, get_elementdata d k = Some e /\ group_contains EG_Span (e_type e) = b.
(* s is the first span annotation above x *)
Inductive nearest_span (d : document) : nat -> nat -> Prop :=
  | nearest_here x s : parent_of d x = Some s -> is_span d s true -> nearest_span d x s
  | nearest_up x p s : parent_of d x = Some p -> is_span d p false -> nearest_span d p s -> nearest_span d x s.
(* Every word reference in the tree refers to a stored element and is part of a span annotation; and the references kept
   with an element are exactly the span annotations of the word references to it, one for each. *)
Definition spans_linked (d : document) : Prop :=
  (forall w e, get_elementdata d w = Some e -> e_type e = ET_WordReference -> e_parent e <> None -> exists k s, refers d w k /\ get_elementdata d k <> None /\ nearest_span d w s) /\
  forall k e, get_elementdata d k = Some e -> exists ws, NoDup ws /\
    (forall w, In w ws <-> refers d w k /\ parent_of d w <> None) /\ Forall2 (nearest_span d) ws (span_refs e).
