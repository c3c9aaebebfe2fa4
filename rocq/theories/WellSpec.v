(* Specification vocabulary: what a body must look like for a document to be loadable. Written over XML nodes, without
   reference to the parser. *)
From Coq Require Import String Ascii List Bool Arith NArith.
From Verif Require Import Base Types SpecTable Attrib Element Store Metadata Document Xml Spec ParseSpec.
Import ListNotations.
Open Scope list_scope.

(* the set a tag gives, if any *)
Definition gives_set (own : list Attribute) (s : option string) : Prop :=
  match s with
  | Some x => In (A_Set x) own
  | None => forall x, ~ In (A_Set x) own
  end.
(* the one ID a tag gives *)
Definition gives_id (own : list Attribute) (id : string) : Prop := In (A_Id id) own /\ forall x, In (A_Id x) own -> x = id.

(* the document has a declaration of this annotation type with this set *)
Definition declares (d : document) (a : AnnotationType) (s : option string) : Prop :=
  exists k x, get_declaration d k = Some x /\ d_type x = a /\ d_set x = s.

Section WellFormed.
Context (O : oracle) (sets : list (AnnotationType * option string)).
(* the annotation types and sets that a tag of type t inside a tag of type p needs are among [sets] *)
Definition covered (p t : ElementType) (own : list Attribute) (feats : list (string * string)) : Prop :=
  (forall a s, et_annotationtype t = Some a -> gives_set own s -> In (a, s) sets) /\
  (forall a s, t = ET_Feature -> et_annotationtype p = Some a -> gives_set own s -> In (a, s) sets) /\
  (forall a, feats <> [] -> et_annotationtype t = Some a -> In (a, None) sets).
(* a word reference is in a span annotation and refers to IDs of tags that were opened before it ends *)
Definition refers (open : list ElementType) (ids : list string) (own : list Attribute) : Prop :=
  (exists id, In (A_Idref id) own) /\ (forall id, In (A_Idref id) own -> In id ids) /\
  exists s, In s open /\ In s (group_elementtypes EG_Span).
(* [well_formed p open ids nodes ids' n]: in a tag of type p inside tags of types [open] (innermost first), after tags
   with the IDs [ids], these nodes can be loaded; they make n elements and the tags so far have the IDs [ids']. *)
Inductive well_formed : ElementType -> list ElementType -> list string -> list xnode -> list string -> nat -> Prop :=
  | wf_nothing p open ids : well_formed p open ids [] ids 0
  | wf_element p open ids name attrs inside rest t own feats new ids1 ids2 n m :
      et_from_str name = Some t -> reads_attributes O t attrs own feats ->
      (t = ET_Feature -> et_annotationtype p <> None) ->
      covered p t own feats ->
      (forall id, In id new -> gives_id own id) ->
      well_formed t (p :: open) (new ++ ids) inside ids1 n ->
      (t = ET_WordReference -> refers (p :: open) ids1 own) ->
      well_formed p open ids1 rest ids2 m ->
      well_formed p open ids (XElement name attrs inside :: rest) ids2 (S (length feats) + n + m)
  | wf_foreign p open ids name attrs inside rest ids1 ids2 n m : well_formed p open ids inside ids1 n -> well_formed p open ids1 rest ids2 m ->
      well_formed p open ids (XForeign name attrs inside :: rest) ids2 (n + m)
  | wf_text p open ids s rest ids' n : well_formed p open ids rest ids' n -> well_formed p open ids (XText s :: rest) ids' n
  | wf_cdata p open ids s rest ids' n : well_formed p open ids rest ids' n -> well_formed p open ids (XCData s :: rest) ids' n
  | wf_comment p open ids s rest ids' n : well_formed p open ids rest ids' n -> well_formed p open ids (XComment s :: rest) ids' n
  | wf_other p open ids rest ids' n : well_formed p open ids rest ids' n -> well_formed p open ids (XOther :: rest) ids' n.
End WellFormed.

(* ---------------------------------------------------------------- what an element value must look like to be added *)
Section Addable.
Context (sets : list (AnnotationType * option string)) (known : string -> Prop).
Definition refers_known (own : list Attribute) : Prop := (exists id, In (A_Idref id) own) /\ forall id, In (A_Idref id) own -> known id.
(* The annotation type and set of the element and of all that is nested in it are among [sets]; a feature is not nested in
   another new element; a word reference is nested directly in a span annotation and refers to known IDs. *)
Inductive addable : elementdata -> Prop :=
  | addable_intro e :
      (forall a s, et_annotationtype (e_type e) = Some a -> gives_set (e_attribs e) s -> In (a, s) sets) ->
      (forall c, In (DAddElement c) (e_data e) -> addable c) ->
      (forall c, In (DAddElement c) (e_data e) -> e_type c <> ET_Feature) ->
      (forall c, In (DAddElement c) (e_data e) -> e_type c = ET_WordReference -> In (e_type e) (group_elementtypes EG_Span) /\ refers_known (e_attribs c)) ->
      addable e.
End Addable.
(* the document has an element with this ID *)
Definition has_element (d : document) (id : string) : Prop := get_element_key_by_id d id <> None.
(* A new child of the existing element p: the set of a feature is declared for the annotation type of p, and a word
   reference goes somewhere in a span annotation and refers to existing elements. *)
Definition fits_under (sets : list (AnnotationType * option string)) (d : document) (p : nat) (e : elementdata) : Prop := exists pe, get_elementdata d p = Some pe /\
  (e_type e = ET_Feature -> exists a, et_annotationtype (e_type pe) = Some a /\ forall s, gives_set (e_attribs e) s -> In (a, s) sets) /\
  (e_type e = ET_WordReference -> refers_known (has_element d) (e_attribs e) /\
     exists a ae, (a = p \/ ancestor d a p) /\ get_elementdata d a = Some ae /\ In (e_type ae) (group_elementtypes EG_Span)).
