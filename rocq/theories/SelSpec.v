(* Specification vocabulary for selections: what it means to walk a document in document order, which items a
   selector accepts, and how repeated spans are left out. Written without reference to the iterator. *)
From Coq Require Import String List Bool Arith NArith.
From Verif Require Import Base Types SpecTable Attrib Element Store Metadata Document Select Spec.
Import ListNotations.
Open Scope list_scope.

(* no element is its own ancestor *)
Definition acyclic (d : document) : Prop := forall k, ~ ancestor d k k.

(* the element types a list of accepted types and groups stands for *)
Definition in_list (t : ElementType) (l : list AcceptedData) : Prop :=
  In (AcceptElementType t) l \/ exists g, In (AcceptElementGroup g) l /\ In t (group_elementtypes g).
(* does a recursion mode descend into the children of elements of type t? *)
Definition descends (r : recursion) (t : ElementType) : Prop :=
  match r with
  | RNo => False
  | RAlways => True
  | RLimitedTo l => in_list t l
  | RExceptFor l => ~ in_list t l
  end.

(* [walk d r n k l]: l is the pre-order walk through the content of element k, whose items are at depth n.
   An item comes before what is below it; items come in the order in which the element holds them. Every item
   carries the element that holds it, its position there, and its depth. *)
Inductive walk (d : document) (r : recursion) : nat -> nat -> list selectitem -> Prop :=
  | walk_element n k e l : get_elementdata d k = Some e -> walk_data d r n k (e_type e) 0 (e_data e) l -> walk d r n k l
with walk_data (d : document) (r : recursion) : nat -> nat -> ElementType -> nat -> list datatype -> list selectitem -> Prop :=
  | walk_nil n k t i : walk_data d r n k t i [] []
  | walk_down n k t i c rest below l : descends r t -> walk d r (S n) c below -> walk_data d r n k t (S i) rest l ->
      walk_data d r n k t i (DElement c :: rest) (mkItem (DElement c) k i n :: below ++ l)
  | walk_stay n k t i x rest l : (descends r t -> forall c, x <> DElement c) -> walk_data d r n k t (S i) rest l ->
      walk_data d r n k t i (x :: rest) (mkItem x k i n :: l).

(* one criterion: is the value v (None: the element has no such value) what is asked for? *)
Definition meets {A} (c : cmp A) (v : option A) : Prop :=
  match c with
  | CAny => True
  | CIs x => v = Some x
  | CSome => v <> None
  | CNone => v = None
  | CUnmatchable => False
  end.
(* the value is read with an accessor that may fail; without restriction it is not read *)
Definition meets_read {A} (c : cmp A) (acc : res (option A)) : Prop := c = CAny \/ exists v, acc = Ok v /\ meets c v.
Definition meets_group (c : cmp ElementGroup) (t : ElementType) : Prop :=
  match c with CAny | CSome => True | CIs g => In t (group_elementtypes g) | CNone | CUnmatchable => False end.

(* does a selector (without its alternatives) accept an item? *)
Definition accepts_one (d : document) (s : selector) (x : datatype) : Prop :=
  match x with
  | DElement k | DSpanReference k =>
      (s_datatypes s = [] \/ In DS_Elements (s_datatypes s)) /\
      exists e, get_elementdata d k = Some e /\
        meets_group (s_elementgroup s) (e_type e) /\ meets (s_elementtype s) (Some (e_type e)) /\
        meets_read (s_set s) (r_declaration_key e) /\ meets_read (s_subset s) (r_subset_key e) /\
        meets_read (s_class s) (r_class_key e) /\ meets_read (s_processor s) (r_processor_key e) /\
        meets_read (s_annotator s) (r_annotator d e) /\ meets_read (s_annotatortype s) (r_annotatortype d e)
  | DText _ => In DS_Text (s_datatypes s)
  | DComment _ => In DS_Comments (s_datatypes s)
  | DAddElement _ => False
  end.
(* a selector and the alternatives chained to it by and() *)
Fixpoint alternatives (s : selector) : list selector :=
  match s with mkSel _ _ _ _ _ _ _ _ _ _ _ next => s :: match next with Some n => alternatives n | None => [] end end.
Definition accepts (d : document) (s : selector) (x : datatype) : Prop := exists a, In a (alternatives s) /\ accepts_one d a x.
(* a criterion that can never be met *)
Definition hopeless {A} (c : cmp A) : Prop := c = CUnmatchable.
Definition hopeless_selector (s : selector) : Prop := hopeless (s_set s) \/ hopeless (s_class s) \/ hopeless (s_processor s).

(* the items of a list for which P holds, in order *)
Inductive chosen {A} (P : A -> Prop) : list A -> list A -> Prop :=
  | chosen_nil : chosen P [] []
  | chosen_keep x l m : P x -> chosen P l m -> chosen P (x :: l) (x :: m)
  | chosen_drop x l m : ~ P x -> chosen P l m -> chosen P (x :: l) m.

(* the span annotation an item stands for: a reference to it, or the element itself *)
Definition span_of (d : document) (x : datatype) : option nat :=
  match x with
  | DSpanReference k => Some k
  | DElement k => match get_elementdata d k with
                  | Some e => if existsb (et_eqb (e_type e)) (group_elementtypes EG_Span) then Some k else None
                  | None => None
                  end
  | _ => None
  end.
(* keep only the first item of every span *)
Inductive once (d : document) : list nat -> list selectitem -> list selectitem -> Prop :=
  | once_nil seen : once d seen [] []
  | once_other seen i l m : span_of d (si_data i) = None -> once d seen l m -> once d seen (i :: l) (i :: m)
  | once_first seen i k l m : span_of d (si_data i) = Some k -> ~ In k seen -> once d (k :: seen) l m -> once d seen (i :: l) (i :: m)
  | once_again seen i k l m : span_of d (si_data i) = Some k -> In k seen -> once d seen l m -> once d seen (i :: l) m.

(* the element an item stands for *)
Definition item_key (x : datatype) : list nat := match x with DElement k | DSpanReference k => [k] | _ => [] end.
Definition item_keys (l : list selectitem) : list nat := flat_map (fun i => item_key (si_data i)) l.
(* the elements that are in a list of items themselves, not through a reference *)
Definition own_keys (l : list selectitem) : list nat := child_keys (map si_data l).

(* [path d r a x n]: x is reached from a in n steps, each from an element that r descends into to one of its children *)
Inductive path (d : document) (r : recursion) : nat -> nat -> nat -> Prop :=
  | path_here a : path d r a a 0
  | path_child a e c x n : get_elementdata d a = Some e -> descends r (e_type e) -> In (DElement c) (e_data e) ->
      path d r c x n -> path d r a x (S n).

(* [chain d k l]: l is the parent of k, the parent of that, and so on up to an element without parent *)
Inductive chain (d : document) : nat -> list nat -> Prop :=
  | chain_end k : parent_of d k = None -> chain d k []
  | chain_up k p l : parent_of d k = Some p -> chain d p l -> chain d k (p :: l).

(* ---------------------------------------------------------------- queries *)
(* a value read from an element satisfies a criterion *)
Definition value_meets {A} (c : cmp A) (r : res (option A)) : Prop := exists v, r = Ok v /\ meets c v.
(* Does an element satisfy a query? All comparisons are between the values a user sees: types, and the strings and
   numbers that the element reports. *)
Record satisfies (d : document) (q : query) (e : elementdata) : Prop := mkSatisfies {
  sat_type : meets (q_elementtype q) (Some (e_type e));
  sat_group : meets_group (q_elementgroup q) (e_type e);
  sat_set : value_meets (q_set q) (r_set d e);
  sat_class : value_meets (q_class q) (r_class d e);
  sat_processor : value_meets (q_processor q) (r_processor d e);
  sat_subset : value_meets (q_subset q) (r_subset d e) }.
(* the criteria about the annotator and the confidence *)
Fixpoint confidence_in (l : list Attribute) : option N :=
  match l with [] => None | A_Confidence c :: _ => Some c | _ :: r => confidence_in r end.
Definition satisfies_annotator (d : document) (q : query) (e : elementdata) : Prop :=
  value_meets (q_annotator q) (r_annotator d e) /\ value_meets (q_annotatortype q) (r_annotatortype d e) /\ meets (q_confidence q) (confidence_in (e_attribs e)).
(* what a query mentions and no declaration or processor of the document has *)
Definition unknown_set (d : document) (q : query) : Prop :=
  exists s, q_set q = CIs s /\ forall k dec, get_declaration d k = Some dec -> d_set dec <> Some s.
Definition unknown_class (d : document) (q : query) : Prop :=
  exists c, q_class q = CIs c /\ forall k dec ck, get_declaration d k = Some dec -> d_get_class dec ck <> Some c /\ d_get_subclass dec ck <> Some c.
Definition unknown_processor (d : document) (q : query) : Prop :=
  exists p, q_processor q = CIs p /\ forall k pr, get_processor d k = Some pr -> pr_id pr <> p.
