(* Specification vocabulary for writing a document as XML and loading it again: which content XML can hold without loss,
   what the tag of an element shows, and what it means that two documents have the same tree. *)
From Coq Require Import String List Bool Arith NArith.
From Verif Require Import Base Types SpecTable Attrib Element Store Metadata Document Xml Spec SerSpec ParseSpec EncodeFacts.
Import ListNotations.
Open Scope list_scope.

(* ---------------------------------------------------------------- content that XML can hold *)
(* no line break is written after the start tag of an element of this type *)
Definition text_first (t : ElementType) : bool := markup t || et_eqb t ET_TextContent || et_eqb t ET_PhonContent.
(* no line break is written after element c *)
Definition text_after (d : document) (c : nat) : bool :=
  match get_elementdata d c with
  | Some e => match e_data e with [] => text_first (e_type e) | _ => markup (e_type e) end
  | None => false
  end.
(* Every text starts where no line break was written (free) and is not followed by another text; no text or comment is
   blank; no comment contains a character that is written as an entity. *)
Fixpoint writable (d : document) (free : bool) (l : list datatype) : Prop :=
  match l with
  | [] => True
  | DText s :: r => free = true /\ ~ blank s /\ writable d false r
  | DComment s :: r => escape s = s /\ ~ blank s /\ writable d true r
  | DElement c :: r => writable d (text_after d c) r
  | _ :: r => writable d free r
  end.
Definition writable_doc (d : document) : Prop := forall k e, get_elementdata d k = Some e -> writable d (text_first (e_type e)) (e_data e).

(* ---------------------------------------------------------------- what a tag shows *)
(* attributes written under their own name and kept as they are: not set, class, subset or processor *)
Definition plain_value (a : Attribute) : bool :=
  match a with
  | A_Ignore | A_Set _ | A_Class _ | A_Subset _ | A_Processor _ | A_DeclarationRef _ | A_ClassRef _ | A_SubsetRef _ | A_ProcessorRef _ => false
  | _ => true
  end.
(* the tag of e shows its set: there is another declaration for its type (features never show their set) *)
Definition shows_set (d : document) (e : elementdata) (s : string) : Prop :=
  exists dk, r_declaration_key e = Ok (Some dk) /\ ~ sole_declaration d dk /\ e_type e <> ET_Feature /\ r_set d e = Ok (Some s).
(* the tag of e shows its processor: the declaration lists others *)
Definition shows_processor (d : document) (e : elementdata) (id : string) : Prop :=
  exists dk pk, r_declaration_key e = Ok (Some dk) /\ r_processor_key e = Ok (Some pk) /\ ~ sole_processor d dk pk /\ r_processor d e = Ok (Some id).
(* the tag of e shows a set, class, subset or processor *)
Definition marked_tag (d : document) (e : elementdata) : Prop :=
  (exists s, shows_set d e s) \/ (exists c, r_class d e = Ok (Some c)) \/ (exists x, r_subset d e = Ok (Some x)) \/ exists id, shows_processor d e id.
(* the layers that may take their set from their content when they are loaded *)
Definition bare_layer_tag (d : document) (e : elementdata) : Prop := group_contains EG_Layer (e_type e) = true /\ ~ marked_tag d e.
(* Such a layer e, read as e': it has its plain attributes and nothing else, or a reference to a declaration of its
   annotation type and nothing else. *)
Definition layer_read (d' : document) (e e' : elementdata) : Prop :=
  e_attribs e' = filter plain_value (e_attribs e) \/
  exists dk dec, e_attribs e' = [A_DeclarationRef dk] /\ get_declaration d' dk = Some dec /\ et_annotationtype (e_type e) = Some (d_type dec).

(* ---------------------------------------------------------------- the same tree *)
(* [same_tree par k k' n]: element k' of d' is, with all that is below it, what element k of d is: same types, same texts
   and comments, same order; its parent is par; n counts the elements. [same e e'] is required of each pair of elements. *)
Section SameTree.
Context (same : elementdata -> elementdata -> Prop) (d d' : document).
Inductive same_tree : option nat -> nat -> nat -> nat -> Prop :=
  | same_element par k k' e e' n : get_elementdata d k = Some e -> get_elementdata d' k' = Some e' -> e_type e' = e_type e -> e_parent e' = par ->
      same e e' -> same_content k' (content e) (content e') n -> same_tree par k k' (S n)
with same_content : nat -> list datatype -> list datatype -> nat -> Prop :=
  | same_end p : same_content p [] [] 0
  | same_text p s l l' n : same_content p l l' n -> same_content p (DText s :: l) (DText s :: l') n
  | same_comment p s l l' n : same_content p l l' n -> same_content p (DComment s :: l) (DComment s :: l') n
  | same_child p c c' l l' m n : same_tree (Some p) c c' m -> same_content p l l' n -> same_content p (DElement c :: l) (DElement c' :: l') (m + n).
End SameTree.
(* Element e' of d' reports the values of element e of d: the plain attributes, the class and the subset (as long as no
   vocabulary of d' is full), and the set if the tag showed it. *)
Definition same_attributes (d d' : document) (e e' : elementdata) : Prop :=
  bare_layer_tag d e /\ layer_read d' e e' \/
  filter plain_value (e_attribs e') = filter plain_value (e_attribs e) /\
  (forall s, shows_set d e s -> r_set d' e' = Ok (Some s)) /\
  (room d' -> forall c, (e_type e = ET_Feature -> exists x, r_subset d e = Ok (Some x)) -> r_class d e = Ok (Some c) -> r_class d' e' = Ok (Some c)) /\
  (e_type e <> ET_Feature -> forall c, r_class d' e' = Ok (Some c) -> r_class d e = Ok (Some c)) /\
  (room d' -> forall x, r_subset d e = Ok (Some x) -> r_subset d' e' = Ok (Some x)).

(* ---------------------------------------------------------------- sets and processors *)
(* Every feature belongs to a declaration of the annotation type of its parent, which it finds without naming a set. *)
Definition features_home (d : document) : Prop := forall k e pk pe dk dec, get_elementdata d k = Some e -> e_type e = ET_Feature -> e_parent e = Some pk -> get_elementdata d pk = Some pe ->
  r_declaration_key e = Ok (Some dk) -> get_declaration d dk = Some dec -> et_annotationtype (e_type pe) = Some (d_type dec) /\ (sole_declaration d dk \/ d_set dec = None).
(* The processor that an element gets when its tag is read: the one in the tag, otherwise (but not for features) the only
   one of its declaration. *)
Definition read_processor (d : document) (e : elementdata) (id : string) : Prop :=
  shows_processor d e id \/
  e_type e <> ET_Feature /\ exists dk pk q, r_declaration_key e = Ok (Some dk) /\ sole_processor d dk pk /\ get_processor d pk = Some q /\ pr_id q = id.
(* Element e' of d' refers to the same declaration as element e of d, with the same set and processor, if its tag shows a
   set, class, subset or processor; otherwise it refers to none. A layer whose tag shows none of them may refer to a
   declaration all the same; if it referred to the only one of its type before, then to the same. *)
Definition same_references (d d' : document) (e e' : elementdata) : Prop :=
  (bare_layer_tag d e /\ r_processor d' e' = Ok None /\
   exists dk, r_declaration_key e' = Ok (Some dk) /\ forall dk0, r_declaration_key e = Ok (Some dk0) -> sole_declaration d dk0 -> dk = dk0 /\ r_set d' e' = r_set d e) \/
  (~ marked_tag d e /\ r_declaration_key e' = Ok None /\ r_set d' e' = Ok None /\ r_processor d' e' = Ok None) \/
  (marked_tag d e /\ r_declaration_key e' = r_declaration_key e /\ r_set d' e' = r_set d e /\
   (e_type e <> ET_Feature -> forall id, r_processor d e = Ok (Some id) -> r_processor d' e' = Ok (Some id)) /\
   exists o, r_processor d' e' = Ok o /\ forall id, o = Some id <-> read_processor d e id).
