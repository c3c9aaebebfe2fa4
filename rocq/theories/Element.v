(* Model of ElementData in /repo/src/element.rs and DataType in /repo/src/types.rs *)
From Coq Require Import String List Bool Arith NArith.
From Verif Require Import Base Types SpecTable Attrib.
Import ListNotations.
Open Scope string_scope.

(* types.rs:770-784  enum DataType; the parameter is the type of ElementData *)
Inductive datatype_ (E : Type) : Type :=
  | DText (s : string)
  | DElement (k : nat)
  | DComment (s : string)
  | DSpanReference (k : nat)
  | DAddElement (e : E).
Arguments DText {E} _.
Arguments DElement {E} _.
Arguments DComment {E} _.
Arguments DSpanReference {E} _.
Arguments DAddElement {E} _.

(* element.rs:45-53  struct ElementData *)
Inductive elementdata : Type := mkElem {
  e_type : ElementType;
  e_attribs : list Attribute;
  e_data : list (datatype_ elementdata);
  e_key : option nat;
  e_parent : option nat }.

Notation datatype := (datatype_ elementdata).

Definition e_with_attribs (e : elementdata) (a : list Attribute) : elementdata :=
  mkElem (e_type e) a (e_data e) (e_key e) (e_parent e).
Definition e_with_data (e : elementdata) (d : list datatype) : elementdata :=
  mkElem (e_type e) (e_attribs e) d (e_key e) (e_parent e).

(* element.rs:104-106  assign_key *)
Definition e_assign_key (k : nat) (e : elementdata) : elementdata :=
  mkElem (e_type e) (e_attribs e) (e_data e) (Some k) (e_parent e).
(* element.rs:721-723  set_parent_key; 726-729 with_parent_key *)
Definition e_set_parent (p : option nat) (e : elementdata) : elementdata :=
  mkElem (e_type e) (e_attribs e) (e_data e) (e_key e) p.

(* element.rs:757-759  ElementData::new *)
Definition e_new (t : ElementType) : elementdata := mkElem t [] [] None None.

(* element.rs:621-628  ElementData::attrib *)
Fixpoint find_attrib (l : list Attribute) (t : AttribType) : option Attribute :=
  match l with
  | [] => None
  | a :: r => if ab_eqb (attribtype a) t then Some a else find_attrib r t
  end.
Definition e_attrib (e : elementdata) (t : AttribType) : option Attribute := find_attrib (e_attribs e) t.

(* element.rs:632-634  has_attrib *)
Definition e_has_attrib (e : elementdata) (t : AttribType) : bool :=
  existsb (fun a => ab_eqb (attribtype a) t) (e_attribs e).

(* element.rs:638-645  del_attrib, on the attribute list *)
Definition del_attrib (l : list Attribute) (t : AttribType) : list Attribute * option Attribute :=
  match position (fun a => ab_eqb (attribtype a) t) l with
  | Some i => (remove_nth i l, nth_error l i)
  | None => (l, None)
  end.

(* element.rs:648-653  set_attrib; 656-659 with_attrib *)
Definition set_attrib (l : list Attribute) (a : Attribute) : list Attribute :=
  fst (del_attrib l (attribtype a)) ++ [a].
Definition e_set_attrib (e : elementdata) (a : Attribute) : elementdata :=
  e_with_attribs e (set_attrib (e_attribs e) a).

(* element.rs:689-692  ElementData::add_element (builder) *)
Definition e_add_element (e c : elementdata) : elementdata :=
  e_with_data e (e_data e ++ [DAddElement c]).
(* element.rs:696-704  push / with *)
Definition e_push (e : elementdata) (x : datatype) : elementdata :=
  e_with_data e (e_data e ++ [x]).
(* element.rs:707-712  with_children *)
Definition e_with_children (e : elementdata) (xs : list datatype) : elementdata :=
  e_with_data e (e_data e ++ xs).
(* element.rs:683-685  with_text *)
Definition e_with_text (e : elementdata) (s : string) : elementdata :=
  e_add_element e (e_push (e_new ET_TextContent) (DText s)).
(* element.rs:675-680  with_span *)
Definition e_with_span (e : elementdata) (ids : list string) : elementdata :=
  fold_left (fun e id => e_add_element e (e_set_attrib (e_new ET_WordReference) (A_Idref id))) ids e.

(* DataType == DataType::Element(k) (derived PartialEq of DataType) *)
Definition is_elem (k : nat) (x : datatype) : bool :=
  match x with DElement k' => Nat.eqb k' k | _ => false end.

(* element.rs:742-744  index(&DataType::Element(k)); the code only calls it with that variant *)
Definition e_index (e : elementdata) (k : nat) : option nat := position (is_elem k) (e_data e).
(* element.rs:747-753  remove *)
Definition e_remove (e : elementdata) (i : nat) : elementdata := e_with_data e (remove_nth i (e_data e)).
(* element.rs:732-734  get_data_at *)
Definition e_data_at (e : elementdata) (i : nat) : option datatype := nth_error (e_data e) i.

(* element.rs:89-96  encodable *)
Definition e_encodable (e : elementdata) : bool := existsb a_encodable (e_attribs e).

(* element.rs:112-119  id *)
Fixpoint attribs_id (l : list Attribute) : option string :=
  match l with
  | [] => None
  | A_Id s :: _ => Some s
  | _ :: r => attribs_id r
  end.
Definition e_id (e : elementdata) : option string := attribs_id (e_attribs e).

(* element.rs:79-85  maybe_id: attrib(ID) then as_str().expect; only Id has that type, so as_str is Ok *)
Definition e_maybe_id (e : elementdata) : option string :=
  match e_attrib e AB_ID with
  | Some a => match a_as_str a with Ok s => Some s | _ => None end
  | None => None
  end.

(* element.rs:131-140, 143-152, 156-165, 168-177: scan for a decoded attribute; an encoded attribute
   met first is an EncodeError *)
Fixpoint scan_decoded (pick : Attribute -> option string) (l : list Attribute) : res (option string) :=
  match l with
  | [] => Ok None
  | a :: r => match pick a with
              | Some s => Ok (Some s)
              | None => if decodable a then Err EEncode else scan_decoded pick r
              end
  end.
Definition pick_class (a : Attribute) := match a with A_Class s => Some s | _ => None end.
Definition pick_set (a : Attribute) := match a with A_Set s => Some s | _ => None end.
Definition pick_subset (a : Attribute) := match a with A_Subset s => Some s | _ => None end.
Definition pick_processor (a : Attribute) := match a with A_Processor s => Some s | _ => None end.
Definition e_class (e : elementdata) := scan_decoded pick_class (e_attribs e).
Definition e_set (e : elementdata) := scan_decoded pick_set (e_attribs e).
Definition e_subset (e : elementdata) := scan_decoded pick_subset (e_attribs e).
Definition e_processor (e : elementdata) := scan_decoded pick_processor (e_attribs e).

(* element.rs:190-199, 202-211, 214-223, 226-235: scan for an encoded attribute; a decoded
   (encodable) attribute met first is an EncodeError *)
Fixpoint scan_encoded (pick : Attribute -> option nat) (l : list Attribute) : res (option nat) :=
  match l with
  | [] => Ok None
  | a :: r => match pick a with
              | Some k => Ok (Some k)
              | None => if a_encodable a then Err EEncode else scan_encoded pick r
              end
  end.
Definition pick_classref (a : Attribute) := match a with A_ClassRef k => Some k | _ => None end.
Definition pick_decref (a : Attribute) := match a with A_DeclarationRef k => Some k | _ => None end.
Definition pick_procref (a : Attribute) := match a with A_ProcessorRef k => Some k | _ => None end.
Definition pick_subsetref (a : Attribute) := match a with A_SubsetRef k => Some k | _ => None end.
Definition e_class_key (e : elementdata) := scan_encoded pick_classref (e_attribs e).
Definition e_declaration_key (e : elementdata) := scan_encoded pick_decref (e_attribs e).
Definition e_processor_key (e : elementdata) := scan_encoded pick_procref (e_attribs e).
Definition e_subset_key (e : elementdata) := scan_encoded pick_subsetref (e_attribs e).

(* element.rs:238-245  idref *)
Fixpoint attribs_idref (l : list Attribute) : option string :=
  match l with
  | [] => None
  | A_Idref s :: _ => Some s
  | _ :: r => attribs_idref r
  end.
Definition e_idref (e : elementdata) : option string := attribs_idref (e_attribs e).

(* the last Idref attribute, as post_add picks it (document.rs:309-314: the loop overwrites) *)
Fixpoint attribs_last_idref (l : list Attribute) (acc : option string) : option string :=
  match l with
  | [] => acc
  | A_Idref s :: r => attribs_last_idref r (Some s)
  | _ :: r => attribs_last_idref r acc
  end.
