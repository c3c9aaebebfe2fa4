(* Specification vocabulary for saving, loading and saving again. *)
From Coq Require Import String List Bool Arith NArith Permutation.
From Verif Require Import Base Types SpecTable Attrib Element Store Metadata Document Spec SerSpec ParseSpec EncodeFacts RoundSpec SpanSpec Xml.
Import ListNotations.
Open Scope string_scope.
Open Scope list_scope.

(* Every feature has a subset and a class. *)
Definition features_complete (d : document) : Prop := forall k e, get_elementdata d k = Some e -> e_type e = ET_Feature ->
  (exists x, r_subset d e = Ok (Some x)) /\ exists c, r_class d e = Ok (Some c).
(* A layer whose tag shows no set, class, subset or processor has no other attributes either, and there are no two
   declarations of its annotation type. *)
Definition bare_layers_plain (d : document) : Prop := forall k e, get_elementdata d k = Some e -> bare_layer_tag d e ->
  filter plain_value (e_attribs e) = [] /\ forall j dec, get_declaration d j = Some dec -> et_annotationtype (e_type e) = Some (d_type dec) -> sole_declaration d j.
(* Every element that is part of a span annotation has text, a comment or elements in it, or one of the word references to
   it is below root. *)
Definition spanned_full (d : document) (root : nat) : Prop := forall k e, get_elementdata d k = Some e -> span_refs e <> [] ->
  content e <> [] \/ exists w, refers d w k /\ ancestor d root w.
(* Element k is not part of a span annotation, nor is its last child, nor the last child of that, and so on. (An element at
   the end can only be part of a span annotation that is inside the element itself, or of one that cannot be loaded.) *)
Inductive end_unspanned (d : document) : nat -> Prop :=
  | end_at k e : get_elementdata d k = Some e -> span_refs e = [] -> (forall l c, e_data e = l ++ [DElement c] -> end_unspanned d c) -> end_unspanned d k.

(* the tags that give these keys these values, each on a line of its own *)
Definition meta_tags (l : list (string * string)) : list wevent := flat_map (fun p => [WStart "meta" [("id", fst p)]; WText (snd p); WEnd "meta"; WText nl]) l.
(* w' is w, but the key/value pairs may be in another order (they are kept in a hash map). *)
Definition same_file (w w' : list wevent) : Prop := exists before l l' after, w = before ++ meta_tags l ++ after /\ w' = before ++ meta_tags l' ++ after /\ Permutation l l'.
