(* Small specification vocabulary used in the statements of the structural properties. Nothing here refers to how
   the library walks or changes a document; only the stored elements are looked at. *)
From Coq Require Import String List Bool Arith NArith.
From Verif Require Import Base Types SpecTable Attrib Element Store Metadata Document Select DocOps Xml Parser History.
Import ListNotations.
Open Scope list_scope.

(* the parent an element records *)
Definition parent_of (d : document) (k : nat) : option nat := obind (get_elementdata d k) e_parent.
(* the child elements an element lists, in order *)
Definition child_keys (l : list datatype) : list nat :=
  flat_map (fun x => match x with DElement k => [k] | _ => [] end) l.
Definition children_of (d : document) (k : nat) : list nat :=
  match get_elementdata d k with Some e => child_keys (e_data e) | None => [] end.
(* the content of an element without the references from words to the spans they are part of *)
Definition is_spanref (x : datatype) : bool := match x with DSpanReference _ => true | _ => false end.
Definition content (e : elementdata) : list datatype := filter (fun x => negb (is_spanref x)) (e_data e).

(* [ancestor d a x]: a is the parent of x, or the parent of its parent, ... *)
Inductive ancestor (d : document) (a : nat) : nat -> Prop :=
  | anc_parent x : parent_of d x = Some a -> ancestor d a x
  | anc_up x b : parent_of d x = Some b -> ancestor d a b -> ancestor d a x.

(* parent and child links agree: an element lists exactly the elements whose parent it is, each once, and they exist *)
Definition consistent (d : document) : Prop := forall p,
  NoDup (children_of d p) /\
  forall c, (In c (children_of d p) <-> parent_of d c = Some p) /\ (In c (children_of d p) -> get_elementdata d c <> None).
(* a list of content items without the item for element c *)
Definition without (c : nat) (l : list datatype) : list datatype :=
  filter (fun x => match x with DElement k => negb (Nat.eqb k c) | _ => true end) l.

(* An element value as the builders make it: it has no parent and its content is text, comments and further new
   elements (no raw keys of stored elements). *)
Inductive new_element : elementdata -> Prop :=
  | new_element_intro e : e_parent e = None ->
      (forall k, ~ In (DElement k) (e_data e)) -> (forall k, ~ In (DSpanReference k) (e_data e)) ->
      (forall c, In (DAddElement c) (e_data e) -> new_element c) ->
      new_element e.
(* the IDs used in an element value, at any depth *)
Fixpoint ids_in (e : elementdata) : list string :=
  match e with
  | mkElem _ attribs data _ _ =>
      (match attribs_id attribs with Some id => [id] | None => [] end) ++
      (fix go (l : list datatype) : list string :=
         match l with
         | [] => []
         | DAddElement c :: r => ids_in c ++ go r
         | _ :: r => go r
         end) data
  end.
(* a freshly built element, with IDs of its own that the document does not have yet *)
Definition fresh_for (d : document) (e : elementdata) : Prop :=
  new_element e /\ NoDup (ids_in e) /\ forall id, In id (ids_in e) -> get_element_key_by_id d id = None.
(* how many elements an element value consists of *)
Fixpoint size (e : elementdata) : nat :=
  match e with
  | mkElem _ _ data _ _ =>
      S ((fix go (l : list datatype) : nat :=
         match l with
         | [] => 0
         | DAddElement c :: r => size c + go r
         | _ :: r => go r
         end) data)
  end.

(* [renders d k e]: the stored element k and what is below it is the element value e: same types, same text and
   comments, same elements, in the same order and nesting, children with the right parent. *)
Fixpoint renders (d : document) (k : nat) (e : elementdata) {struct e} : Prop :=
  match e with
  | mkElem t _ data _ _ =>
      exists x, get_elementdata d k = Some x /\ e_type x = t /\
      (fix go (l : list datatype) (s : list datatype) {struct l} : Prop :=
         match l, s with
         | [], [] => True
         | DText a :: r, DText b :: q => a = b /\ go r q
         | DComment a :: r, DComment b :: q => a = b /\ go r q
         | DAddElement c :: r, DElement ck :: q => parent_of d ck = Some k /\ renders d ck c /\ go r q
         | _, _ => False
         end) data (content x)
  end.

(* the values of all xml:id attributes in a file *)
Definition tag_ids (attrs : xattrs) : list string :=
  flat_map (fun a => match a with
                     | Some a => if String.eqb (xa_key a) "xml:id" then match xa_val a with Some v => [v] | None => [] end else []
                     | None => [] end) attrs.
Definition xml_ids (l : list event) : list string :=
  flat_map (fun ev => match ev with EvStart _ _ attrs | EvEmpty _ _ attrs => tag_ids attrs | _ => [] end) l.

(* Operations used with care: what is added is freshly built and has new, unique IDs; elements with nested new
   elements are added by add_element_to (to an existing element), annotate or annotate_span; an element is not
   attached below itself. *)
Definition no_nested (e : elementdata) : Prop := forall c, ~ In (DAddElement c) (e_data e).
Definition careful (d : document) (o : op) : Prop :=
  match o with
  | OAddElement e => fresh_for d e /\ no_nested e
  | OStoreAdd e _ => fresh_for d e /\ no_nested e
  | OAddElementTo p e => get_elementdata d p <> None /\ fresh_for d e
  | OAnnotate _ e | OAnnotateSpan e => fresh_for d e
  | OAttach p c => p <> c /\ ~ ancestor d c p
  | _ => True
  end.
Definition adds_elements (o : op) : Prop :=
  match o with OAddElementTo _ _ | OAnnotate _ _ | OAnnotateSpan _ => True | _ => False end.
(* one careful step: if adding fails the document must not have been changed *)
Definition careful_step (d : document) (o : op) (d' : document) : Prop :=
  op_ok normal d o /\ careful d o /\ exists fuel r, run_op fuel d o = (d', r) /\ returned r /\
  (adds_elements o -> r = Ok tt \/ d' = d).

(* Documents made by Document::new, or by loading a file in which no xml:id occurs twice, and then changed by any
   number of careful steps. *)
Inductive tidy : document -> Prop :=
  | tidy_new id p d : props_ok normal p -> doc_new id p = (d, Ok tt) -> tidy d
  | tidy_load fuel O p l d : props_ok normal p -> NoDup (xml_ids l) -> parse_document fuel O p l = Ok d -> tidy d
  | tidy_step d o d' : tidy d -> careful_step d o d' -> tidy d'.
