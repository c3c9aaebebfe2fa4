(* The public operations that change a document, and the documents that any sequence of them can reach.
   Direct mutation through &mut ElementData / &mut Declaration / &mut Processor references handed out by the
   get_mut_* methods is not an operation here. *)
From Coq Require Import String List Bool Arith NArith.
From Verif Require Import Base Types Attrib Element Store Metadata Document Select DocOps Xml Parser.
Import ListNotations.

Inductive op : Type :=
  | OAddElement (e : elementdata)                        (* document.rs:174 *)
  | OAddElementTo (parent : nat) (e : elementdata)       (* document.rs:198 *)
  | OStoreAdd (e : elementdata) (context : option nat)   (* Store::add, store.rs:57 *)
  | OAttach (parent child : nat)                         (* document.rs:268 *)
  | ODetach (child : nat)                                (* document.rs:376 *)
  | OAnnotate (parent : nat) (e : elementdata)           (* document.rs:502 *)
  | OAnnotateSpan (e : elementdata)                      (* document.rs:599 *)
  | ODeclare (t : AnnotationType) (set alias format : option string)  (* document.rs:457 *)
  | OAddDeclaration (x : declaration)                    (* document.rs:182 *)
  | OAddClass (dk : nat) (c : string)                    (* metadata.rs:299 *)
  | OAddProvenance (p : processor)                       (* document.rs:189 *)
  | OAddProcessor (p : processor)                        (* document.rs:400 *)
  | OAddSubprocessor (parent : nat) (p : processor)      (* document.rs:414 *)
  | OAttachProcessor (parent child : nat)                (* document.rs:428 *)
  | OActivate (k : nat)                                  (* document.rs:449 *)
  | OApplyProperties (p : docprops).                     (* document.rs:118 *)

Definition forget {A} (r : document * res A) : document * res unit :=
  let! d, _ := r in (d, Ok tt).

Definition run_op (fuel : nat) (d : document) (o : op) : document * res unit :=
  match o with
  | OAddElement e => forget (add_element fuel d e)
  | OAddElementTo p e => forget (add_element_to fuel d p e)
  | OStoreAdd e ctx => forget (store_add d e ctx)
  | OAttach p c => attach_element d p c
  | ODetach c => detach_element d c
  | OAnnotate p e => forget (annotate fuel d p e)
  | OAnnotateSpan e => forget (annotate_span fuel d e)
  | ODeclare t s a f => forget (declare d t s a f)
  | OAddDeclaration x => forget (add_declaration d x)
  | OAddClass dk c => forget (doc_add_class d dk c)
  | OAddProvenance p => forget (add_provenance d p)
  | OAddProcessor p => forget (add_processor d p)
  | OAddSubprocessor k p => forget (add_subprocessor d k p)
  | OAttachProcessor p c => attach_processor d p c
  | OActivate k => (activate_processor d k, Ok tt)
  | OApplyProperties p => apply_properties d p
  end.

(* the operation came back to its caller, with success or with an error *)
Definition returned {A} (r : res A) : Prop := match r with Ok _ | Err _ => True | _ => False end.

(* What callers pass in. [g_elem] restricts the type and attributes of every element value (nested ones
   too), [g_decl] the declarations, [g_proc] the processors (nested ones too); [g_strict]: only existing
   processors are activated. *)
Record guards : Type := mkG {
  g_elem : ElementType -> list Attribute -> Prop;
  g_decl : declaration -> Prop;
  g_proc : processor -> Prop;
  g_strict : Prop }.

(* a property of the type and attributes of an element value and of all elements built into it *)
Inductive elem_all (P : ElementType -> list Attribute -> Prop) : elementdata -> Prop :=
  | elem_all_intro e : P (e_type e) (e_attribs e) ->
      (forall c, In (DAddElement c) (e_data e) -> elem_all P c) -> elem_all P e.
(* the same for processors with new subprocessors *)
Inductive proc_all (P : processor -> Prop) : processor -> Prop :=
  | proc_all_intro p : P p -> (forall c, In c (pr_pending p) -> proc_all P c) -> proc_all P p.

Definition props_ok (g : guards) (p : docprops) : Prop :=
  forall pr, dp_processor p = Some pr -> proc_all (g_proc g) pr.

Definition op_ok (g : guards) (d : document) (o : op) : Prop :=
  match o with
  | OAddElement e | OAddElementTo _ e | OAnnotate _ e | OAnnotateSpan e => elem_all (g_elem g) e
  | OStoreAdd e _ => g_elem g (e_type e) (e_attribs e)
  | OAddDeclaration x => g_decl g x
  | OAddProvenance p => g_proc g p
  | OAddProcessor p | OAddSubprocessor _ p => proc_all (g_proc g) p
  | OActivate k => g_strict g -> exists p, get_processor d k = Some p
  | OApplyProperties p => props_ok g p
  | _ => True
  end.

(* the tags of a file: what element tags are parsed to is allowed *)
Definition load_ok (g : guards) (O : oracle) (l : list event) : Prop :=
  forall ns name attrs, In (EvStart ns name attrs) l \/ In (EvEmpty ns name attrs) l ->
  forall et x, et_from_str name = Some et -> parse_attributes O et attrs = Ok x ->
    g_elem g et (fst x) /\ forall c, In c (snd x) -> g_elem g (e_type c) (e_attribs c).

(* a history: operations performed one after the other; those that failed with an error count too *)
Inductive history (g : guards) : document -> list op -> document -> Prop :=
  | hist_nil d : history g d [] d
  | hist_cons d o d1 r l d2 fuel :
      op_ok g d o -> run_op fuel d o = (d1, r) -> returned r -> history g d1 l d2 -> history g d (o :: l) d2.

(* documents made by Document::new or by loading, then changed by any history *)
Inductive reachable (g : guards) : document -> Prop :=
  | reach_new id p d : props_ok g p -> doc_new id p = (d, Ok tt) -> reachable g d
  | reach_load fuel O p l d : props_ok g p -> load_ok g O l -> parse_document fuel O p l = Ok d -> reachable g d
  | reach_op d fuel o d' r : reachable g d -> op_ok g d o -> run_op fuel d o = (d', r) -> returned r -> reachable g d'.

(* no restriction *)
Definition anything : guards := mkG (fun _ _ => True) (fun _ => True) (fun _ => True) False.

(* Normal use: element values carry only textual attributes, not raw references into the stores (those
   variants of the Attribute enum are public but meant for internal use); declarations are as made by
   Declaration::new; processors are as made by Processor::new and its builders (the fields that refer to other
   processors are empty); only existing processors are activated. *)
Definition decl_fresh (x : declaration) : Prop :=
  d_processors x = [] /\ d_classes x = None /\ d_subsets x = None /\ d_subclasses x = None.
Definition proc_fresh (p : processor) : Prop := pr_processors p = [] /\ pr_parent p = None.
Definition textual (l : list Attribute) : Prop := forall a, In a l -> decodable a = false.
Definition normal : guards := mkG (fun _ l => textual l) decl_fresh proc_fresh True.
