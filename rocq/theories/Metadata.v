(* Model of /repo/src/metadata.rs: declarations, class/subset stores, processors, metadata *)
From Coq Require Import String List Bool Arith NArith.
From Verif Require Import Base Types SpecTable Attrib Store.
Import ListNotations.
Open Scope string_scope.

(* types.rs:9-22  key types: ElementKey = ClassKey = u32, ProcKey = DecKey = SubsetKey = u16 *)
Definition max_element : N := u32_max.
Definition max_class : N := u32_max.
Definition max_proc : N := u16_max.
Definition max_dec : N := u16_max.
Definition max_subset : N := u16_max.

(* metadata.rs:21-31  struct Declaration *)
Record declaration : Type := mkDecl {
  d_key : option nat;
  d_type : AnnotationType;
  d_set : option string;
  d_alias : option string;
  d_format : option string;
  d_processors : list nat;
  d_classes : option sstore;
  d_subsets : option sstore;
  d_subclasses : option sstore }.

(* metadata.rs:35-37  Declaration::new *)
Definition d_new (t : AnnotationType) (set alias format : option string) : declaration :=
  mkDecl None t set alias format [] None None None.

(* metadata.rs:40-46  default_processor *)
Definition d_default_processor (d : declaration) : option nat :=
  if Nat.eqb (List.length (d_processors d)) 1 then nth_error (d_processors d) 0 else None.

(* metadata.rs:49-55  index_id; Display of AnnotationType is as_str (types.rs:146-150) *)
Definition index_id (t : AnnotationType) (set : option string) : string :=
  match set with
  | Some s => at_as_str t ++ "/" ++ s
  | None => at_as_str t
  end.

Definition sopt_get (o : option sstore) (k : nat) : option string :=
  match o with Some s => st_get s k | None => None end.
Definition sopt_key (o : option sstore) (x : string) : option nat :=
  match o with Some s => ss_get_key s x | None => None end.
Definition sopt_add (maxkey : N) (o : option sstore) (x : string) : option sstore * res nat :=
  let s := match o with Some s => s | None => st_empty end in
  match ss_get_key s x with
  | Some k => (Some s, Ok k)
  | None => let (s', r) := ss_add maxkey s x in (Some s', r)
  end.

(* metadata.rs:57-63, 65-71, 74-80  get_class / get_subset / get_subclass *)
Definition d_get_class (d : declaration) (k : nat) := sopt_get (d_classes d) k.
Definition d_get_subset (d : declaration) (k : nat) := sopt_get (d_subsets d) k.
Definition d_get_subclass (d : declaration) (k : nat) := sopt_get (d_subclasses d) k.

Definition d_with_classes (d : declaration) (c : option sstore) : declaration :=
  mkDecl (d_key d) (d_type d) (d_set d) (d_alias d) (d_format d) (d_processors d) c (d_subsets d) (d_subclasses d).
Definition d_with_subsets (d : declaration) (c : option sstore) : declaration :=
  mkDecl (d_key d) (d_type d) (d_set d) (d_alias d) (d_format d) (d_processors d) (d_classes d) c (d_subclasses d).
Definition d_with_subclasses (d : declaration) (c : option sstore) : declaration :=
  mkDecl (d_key d) (d_type d) (d_set d) (d_alias d) (d_format d) (d_processors d) (d_classes d) (d_subsets d) c.
Definition d_with_processors (d : declaration) (p : list nat) : declaration :=
  mkDecl (d_key d) (d_type d) (d_set d) (d_alias d) (d_format d) p (d_classes d) (d_subsets d) (d_subclasses d).
(* metadata.rs:165-168  assign_key *)
Definition d_assign_key (k : nat) (d : declaration) : declaration :=
  mkDecl (Some k) (d_type d) (d_set d) (d_alias d) (d_format d) (d_processors d) (d_classes d) (d_subsets d) (d_subclasses d).

(* metadata.rs:85-94, 98-107, 111-120  add_class / add_subset / add_subclass *)
Definition d_add_class (d : declaration) (x : string) : declaration * res nat :=
  let (c, r) := sopt_add max_class (d_classes d) x in (d_with_classes d c, r).
Definition d_add_subset (d : declaration) (x : string) : declaration * res nat :=
  let (c, r) := sopt_add max_subset (d_subsets d) x in (d_with_subsets d c, r).
Definition d_add_subclass (d : declaration) (x : string) : declaration * res nat :=
  let (c, r) := sopt_add max_class (d_subclasses d) x in (d_with_subclasses d c, r).

(* metadata.rs:124-131, 134-141, 144-151  class_key / subset_key / subclass_key *)
Definition d_class_key (d : declaration) (x : string) := sopt_key (d_classes d) x.
Definition d_subset_key (d : declaration) (x : string) := sopt_key (d_subsets d) x.
Definition d_subclass_key (d : declaration) (x : string) := sopt_key (d_subclasses d) x.

(* metadata.rs:155-158  maybe_id of a declaration: always Some *)
Definition d_maybe_id (d : declaration) : option string := Some (index_id (d_type d) (d_set d)).

(* the code's "if !v.contains(k) { v.push(k) }" *)
Definition push_if_absent (k : nat) (l : list nat) : list nat :=
  if mem_nat k l then l else l ++ [k].

(* metadata.rs:250-270  default_mask: the HashMap of counts is the count of each type *)
Definition has_type (t : AnnotationType) (o : option declaration) : bool :=
  match o with Some d => at_eqb (d_type d) t | None => false end.
Definition type_count (items : list (option declaration)) (t : AnnotationType) : nat :=
  List.length (filter (has_type t) items).
Definition default_mask (s : store declaration) : list bool :=
  map (fun o => match o with
                | Some d => Nat.eqb (type_count (st_items s) (d_type d)) 1
                | None => false
                end) (st_items s).

(* metadata.rs:274-291  get_default_key; "as DecKey" is the identity because a store never holds more
   than 65536 declarations (theorem dec_store_bounded) *)
Fixpoint indices_of_type (i : nat) (t : AnnotationType) (items : list (option declaration)) : list nat :=
  match items with
  | [] => []
  | o :: r => if has_type t o then i :: indices_of_type (S i) t r else indices_of_type (S i) t r
  end.
Definition get_default_key (s : store declaration) (t : AnnotationType) : option nat :=
  match indices_of_type 0 t (st_items s) with
  | [k] => Some k
  | _ => None
  end.

(* metadata.rs:542-546  struct Metadata *)
Record metadata : Type := mkMeta {
  m_data : smap string;
  m_src : option string;
  m_type : option string }.
Definition meta_default : metadata := mkMeta [] None None.

(* metadata.rs:361-382  struct Processor. [pr_pending] is the RefCell of processors still to be added. *)
Inductive processor : Type := mkProc {
  pr_id : string;
  pr_name : string;
  pr_type : ProcessorType;
  pr_version : string;
  pr_folia_version : string;
  pr_document_version : string;
  pr_command : string;
  pr_host : string;
  pr_user : string;
  pr_begin : option datetime;
  pr_end : option datetime;
  pr_processors : list nat;
  pr_src : string;
  pr_format : string;
  pr_resourcelink : string;
  pr_parent : option nat;
  pr_metadata : metadata;
  pr_key : option nat;
  pr_pending : list processor }.

(* metadata.rs:386-412  Processor::new; the random ID is a parameter *)
Definition pr_new (id name : string) : processor :=
  mkProc id name PT_Auto "" "" "" "" "" "" None None [] "" "" "" None meta_default None [].

Definition pr_with_type (t : ProcessorType) (p : processor) : processor :=
  mkProc (pr_id p) (pr_name p) t (pr_version p) (pr_folia_version p) (pr_document_version p)
    (pr_command p) (pr_host p) (pr_user p) (pr_begin p) (pr_end p) (pr_processors p) (pr_src p) (pr_format p)
    (pr_resourcelink p) (pr_parent p) (pr_metadata p) (pr_key p) (pr_pending p).
Definition pr_with_processors (l : list nat) (p : processor) : processor :=
  mkProc (pr_id p) (pr_name p) (pr_type p) (pr_version p) (pr_folia_version p) (pr_document_version p)
    (pr_command p) (pr_host p) (pr_user p) (pr_begin p) (pr_end p) l (pr_src p) (pr_format p)
    (pr_resourcelink p) (pr_parent p) (pr_metadata p) (pr_key p) (pr_pending p).
Definition pr_with_parent (o : option nat) (p : processor) : processor :=
  mkProc (pr_id p) (pr_name p) (pr_type p) (pr_version p) (pr_folia_version p) (pr_document_version p)
    (pr_command p) (pr_host p) (pr_user p) (pr_begin p) (pr_end p) (pr_processors p) (pr_src p) (pr_format p)
    (pr_resourcelink p) o (pr_metadata p) (pr_key p) (pr_pending p).
Definition pr_with_pending (l : list processor) (p : processor) : processor :=
  mkProc (pr_id p) (pr_name p) (pr_type p) (pr_version p) (pr_folia_version p) (pr_document_version p)
    (pr_command p) (pr_host p) (pr_user p) (pr_begin p) (pr_end p) (pr_processors p) (pr_src p) (pr_format p)
    (pr_resourcelink p) (pr_parent p) (pr_metadata p) (pr_key p) l.
(* metadata.rs:529-531  assign_key *)
Definition pr_assign_key (k : nat) (p : processor) : processor :=
  mkProc (pr_id p) (pr_name p) (pr_type p) (pr_version p) (pr_folia_version p) (pr_document_version p)
    (pr_command p) (pr_host p) (pr_user p) (pr_begin p) (pr_end p) (pr_processors p) (pr_src p) (pr_format p)
    (pr_resourcelink p) (pr_parent p) (pr_metadata p) (Some k) (pr_pending p).
(* metadata.rs:496-506  with_existing_subprocessor / with_new_subprocessor *)
Definition pr_with_existing_subprocessor (k : nat) (p : processor) : processor :=
  pr_with_processors (pr_processors p ++ [k]) p.
Definition pr_with_new_subprocessor (c p : processor) : processor :=
  pr_with_pending (pr_pending p ++ [c]) p.
(* metadata.rs:533-535  maybe_id of a processor: always Some *)
Definition pr_maybe_id (p : processor) : option string := Some (pr_id p).
