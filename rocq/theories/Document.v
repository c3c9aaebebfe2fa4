(* Model of /repo/src/document.rs: the document, declarations, processors, encoding, adding elements to
   the store, attaching and detaching; and of the ReadElement accessors of element.rs. *)
From Coq Require Import String List Bool Arith NArith.
From Verif Require Import Base Types SpecTable Attrib Element Store Metadata.
Import ListNotations.
Open Scope string_scope.

(* common.rs:4-7 *)
Definition FOLIAVERSION : string := "2.1.0".
Definition GENERATOR : string := "folia-rust".
Definition DEFAULT_TEXT_SET : string :=
  "https://raw.githubusercontent.com/proycon/folia/master/setdefinitions/text.foliaset.ttl".

(* document.rs:31-50  struct Document; ProvenanceStore (metadata.rs:320-324) = processor store + chain.
   elementstore.rs:13-27: root is always DataType::Element(0); the specification is the constant [props]. *)
Record document : Type := mkDoc {
  doc_id : string;
  doc_version : string;
  doc_filename : option string;
  doc_elements : store elementdata;
  doc_procs : store processor;
  doc_chain : list nat;
  doc_decls : store declaration;
  doc_metadata : metadata;
  doc_submetadata : smap metadata;
  doc_active : option nat;
  doc_autodeclare : bool }.

Definition doc_with_elements (d : document) (x : store elementdata) : document :=
  mkDoc (doc_id d) (doc_version d) (doc_filename d) x (doc_procs d) (doc_chain d) (doc_decls d)
        (doc_metadata d) (doc_submetadata d) (doc_active d) (doc_autodeclare d).
Definition doc_with_procs (d : document) (x : store processor) : document :=
  mkDoc (doc_id d) (doc_version d) (doc_filename d) (doc_elements d) x (doc_chain d) (doc_decls d)
        (doc_metadata d) (doc_submetadata d) (doc_active d) (doc_autodeclare d).
Definition doc_with_chain (d : document) (x : list nat) : document :=
  mkDoc (doc_id d) (doc_version d) (doc_filename d) (doc_elements d) (doc_procs d) x (doc_decls d)
        (doc_metadata d) (doc_submetadata d) (doc_active d) (doc_autodeclare d).
Definition doc_with_decls (d : document) (x : store declaration) : document :=
  mkDoc (doc_id d) (doc_version d) (doc_filename d) (doc_elements d) (doc_procs d) (doc_chain d) x
        (doc_metadata d) (doc_submetadata d) (doc_active d) (doc_autodeclare d).
Definition doc_with_metadata (d : document) (x : metadata) : document :=
  mkDoc (doc_id d) (doc_version d) (doc_filename d) (doc_elements d) (doc_procs d) (doc_chain d) (doc_decls d)
        x (doc_submetadata d) (doc_active d) (doc_autodeclare d).
Definition doc_with_submetadata (d : document) (x : smap metadata) : document :=
  mkDoc (doc_id d) (doc_version d) (doc_filename d) (doc_elements d) (doc_procs d) (doc_chain d) (doc_decls d)
        (doc_metadata d) x (doc_active d) (doc_autodeclare d).
Definition doc_with_active (d : document) (x : option nat) : document :=
  mkDoc (doc_id d) (doc_version d) (doc_filename d) (doc_elements d) (doc_procs d) (doc_chain d) (doc_decls d)
        (doc_metadata d) (doc_submetadata d) x (doc_autodeclare d).
Definition doc_with_id (d : document) (x : string) : document :=
  mkDoc x (doc_version d) (doc_filename d) (doc_elements d) (doc_procs d) (doc_chain d) (doc_decls d)
        (doc_metadata d) (doc_submetadata d) (doc_active d) (doc_autodeclare d).
Definition doc_with_version (d : document) (x : string) : document :=
  mkDoc (doc_id d) x (doc_filename d) (doc_elements d) (doc_procs d) (doc_chain d) (doc_decls d)
        (doc_metadata d) (doc_submetadata d) (doc_active d) (doc_autodeclare d).

(* document.rs:612-678  getters *)
Definition get_elementdata (d : document) (k : nat) : option elementdata := st_get (doc_elements d) k.
Definition get_elementdata_by_id (d : document) (id : string) : res (option elementdata) :=
  st_get_by_id (doc_elements d) id.
Definition get_element_key_by_id (d : document) (id : string) : option nat := st_id_to_key (doc_elements d) id.
Definition get_declaration (d : document) (k : nat) : option declaration := st_get (doc_decls d) k.
Definition get_declaration_key_by_id (d : document) (id : string) : option nat := st_id_to_key (doc_decls d) id.
Definition get_processor (d : document) (k : nat) : option processor := st_get (doc_procs d) k.
Definition get_processor_key_by_id (d : document) (id : string) : option nat := st_id_to_key (doc_procs d) id.

(* "if let Some(x) = self.get_mut..(k) { *x = f(x) }" on the three stores *)
Definition upd_element (d : document) (k : nat) (f : elementdata -> elementdata) : document :=
  match get_elementdata d k with
  | Some e => doc_with_elements d (st_set (doc_elements d) k (f e))
  | None => d
  end.
Definition upd_declaration (d : document) (k : nat) (f : declaration -> declaration) : document :=
  match get_declaration d k with
  | Some e => doc_with_decls d (st_set (doc_decls d) k (f e))
  | None => d
  end.
Definition upd_processor (d : document) (k : nat) (f : processor -> processor) : document :=
  match get_processor d k with
  | Some e => doc_with_procs d (st_set (doc_procs d) k (f e))
  | None => d
  end.

(* document.rs:182-184  add_declaration *)
Definition add_declaration (d : document) (x : declaration) : document * res nat :=
  let (s, r) := st_add max_dec d_maybe_id d_assign_key (doc_decls d) x in (doc_with_decls d s, r).
(* document.rs:189-191  add_provenance *)
Definition add_provenance (d : document) (x : processor) : document * res nat :=
  let (s, r) := st_add max_proc pr_maybe_id pr_assign_key (doc_procs d) x in (doc_with_procs d s, r).

(* document.rs:428-447  attach_processor *)
Definition attach_processor (d : document) (parent child : nat) : document * res unit :=
  match get_processor d parent with
  | None => (d, Err EInternal)
  | Some _ =>
      match get_processor d child with
      | None => (d, Err EInternal)
      | Some _ =>
          let d1 := upd_processor d child (pr_with_parent (Some parent)) in
          (upd_processor d1 parent (fun p => pr_with_processors (pr_processors p ++ [child]) p), Ok tt)
      end
  end.

(* document.rs:414-424  add_subprocessor. pending_processors.replace(vec![]) empties the stored copy. *)
Fixpoint add_subprocessor (d : document) (parent : nat) (p : processor) {struct p} : document * res nat :=
  match p with
  | mkProc id name ty ver fv dv cmd host user b e procs src fmt rl par md key pending =>
      let p0 := mkProc id name ty ver fv dv cmd host user b e procs src fmt rl par md key [] in
      let! d1, child := add_provenance d p0 in
      let! d2, _ := attach_processor d1 parent child in
      let! d3, _ := (fix go (d : document) (l : list processor) {struct l} : document * res unit :=
         match l with
         | [] => (d, Ok tt)
         | q :: r => let! d', _ := add_subprocessor d child q in go d' r
         end) d2 pending in
      (d3, Ok child)
  end.

Fixpoint add_subprocessors (d : document) (parent : nat) (l : list processor) : document * res unit :=
  match l with
  | [] => (d, Ok tt)
  | q :: r => let! d', _ := add_subprocessor d parent q in add_subprocessors d' parent r
  end.

(* document.rs:400-410  add_processor *)
Definition add_processor (d : document) (p : processor) : document * res nat :=
  let! d1, child := add_provenance d (pr_with_pending [] p) in
  let d2 := doc_with_chain d1 (doc_chain d1 ++ [child]) in
  let! d3, _ := add_subprocessors d2 child (pr_pending p) in
  (d3, Ok child).

(* document.rs:449-451  activate_processor *)
Definition activate_processor (d : document) (k : nat) : document := doc_with_active d (Some k).

(* document.rs:492-499: add the processor to the declaration unless it is there *)
Definition assoc_processor (d : document) (dk pk : nat) : document :=
  upd_declaration d dk (fun dec => d_with_processors dec (push_if_absent pk (d_processors dec))).

(* document.rs:457-497  declare *)
Definition declare (d : document) (t : AnnotationType) (set alias format : option string) : document * res nat :=
  match get_declaration_key_by_id d (index_id t set) with
  | Some k => (d, Ok k)
  | None =>
      let from_default :=
        match get_default_key (doc_decls d) t with
        | Some dk =>
            match get_declaration d dk with
            | Some dec =>
                match set with
                | Some s => match d_set dec with
                            | Some s' => if String.eqb s' s then Some dk else None
                            | None => None
                            end
                | None => Some dk
                end
            | None => None
            end
        | None => None
        end in
      let! d1, k := (match from_default with
                     | Some k => (d, Ok k)
                     | None => add_declaration d (d_new t set alias format)
                     end) in
      (match doc_active d1 with
       | Some pk => assoc_processor d1 k pk
       | None => d1
       end, Ok k)
  end.

(* metadata.rs:299-305  Document::add_class *)
Definition doc_add_class (d : document) (dk : nat) (c : string) : document * res nat :=
  match get_declaration d dk with
  | Some dec => let (dec', r) := d_add_class dec c in
                (doc_with_decls d (st_set (doc_decls d) dk dec'), r)
  | None => (d, Err EKey)
  end.
(* metadata.rs:309-315  Document::class_key *)
Definition doc_class_key (d : document) (dk : nat) (c : string) : res nat :=
  match get_declaration d dk with
  | Some dec => ok_or (d_class_key dec c) EKey
  | None => Err EKey
  end.

(* "if let Ok(Some(x)) = r { if let Some(decl) = get_mut_declaration(dk) { if let Ok(k) = decl.add(x) ..}}" *)
Definition intern_opt (d : document) (dk : nat) (add : declaration -> string -> declaration * res nat)
    (r : res (option string)) : document * option nat :=
  match r with
  | Ok (Some x) =>
      match get_declaration d dk with
      | Some dec => let (dec', k) := add dec x in
                    (doc_with_decls d (st_set (doc_decls d) dk dec'),
                     match k with Ok k => Some k | _ => None end)
      | None => (d, None)
      end
  | _ => (d, None)
  end.

(* what the first half of encode computes (document.rs:786-850) *)
Record encoding : Type := mkEnc {
  en_dec : option nat; en_class : option nat; en_proc : option nat; en_subset : option nat;
  en_test : bool }.

(* document.rs:800-847: the declaration, class, default processor and subset *)
Definition encode_refs (d : document) (e : elementdata) (context : option nat) : document * res encoding :=
  match et_annotationtype (e_type e) with
  | Some t =>
      let! d, set := (d, unwrap (e_set e)) in
      let! d, dk := declare d t set None None in
      let (d, ck) := intern_opt d dk d_add_class (e_class e) in
      match get_declaration d dk with
      | Some dec =>
          match d_default_processor dec with
          | Some pk => (d, Ok (mkEnc (Some dk) ck (Some pk) None false))
          | None =>
              match doc_active d with
              | Some pk => (d, Ok (mkEnc (Some dk) ck (Some pk) None (negb (mem_nat pk (d_processors dec)))))
              | None => (d, Ok (mkEnc (Some dk) ck None None false))
              end
          end
      | None => (d, Ok (mkEnc (Some dk) ck None None false))
      end
  | None =>
      match e_type e with
      | ET_Feature =>
          match context with
          | None => (d, Err EInternal)
          | Some pk =>
              let! d, parent := (d, ok_or (get_elementdata d pk) EInternal) in
              let! d, t := (d, expect (et_annotationtype (e_type parent))) in
              let! d, set := (d, unwrap (e_set e)) in
              let! d, dk := declare d t set None None in
              let (d, ck) := intern_opt d dk d_add_subclass (e_class e) in
              let (d, sk) := intern_opt d dk d_add_subset (e_subset e) in
              (d, Ok (mkEnc (Some dk) ck None sk false))
          end
      | _ => (d, Ok (mkEnc None None None None false))
      end
  end.

(* document.rs:850-856: an explicit processor overrides the default *)
Definition encode_explicit (d : document) (e : elementdata) (n : encoding) : encoding :=
  match e_processor e with
  | Ok (Some pid) =>
      match get_processor_key_by_id d pid with
      | Some pk => mkEnc (en_dec n) (en_class n) (Some pk) (en_subset n) true
      | None => n
      end
  | _ => n
  end.

(* document.rs:858-868 *)
Definition encode_assoc (d : document) (n : encoding) : document :=
  if en_test n then
    match en_dec n, en_proc n with
    | Some dk, Some pk => assoc_processor d dk pk
    | _, _ => d
    end
  else d.

Definition opt_attr (f : nat -> Attribute) (o : option nat) : list Attribute :=
  match o with Some k => [f k] | None => [] end.

(* document.rs:870-888: the attributes of the encoded element *)
Definition encoded_attribs (l : list Attribute) (n : encoding) : list Attribute :=
  filter (fun a => negb (a_encodable a)) l ++
  opt_attr A_DeclarationRef (en_dec n) ++ opt_attr A_ClassRef (en_class n) ++
  opt_attr A_ProcessorRef (en_proc n) ++ opt_attr A_SubsetRef (en_subset n).

(* document.rs:786-890  encode *)
Definition encode (d : document) (e : elementdata) (context : option nat) : document * res elementdata :=
  if negb (e_encodable e) then (d, Ok e)
  else
    let! d1, n := encode_refs d e context in
    let n' := encode_explicit d1 e n in
    let d2 := encode_assoc d1 n' in
    (d2, Ok (e_with_attribs e (encoded_attribs (e_attribs e) n'))).

(* store.rs:57-81 with document.rs:786: Store<ElementData>::add *)
Definition store_add (d : document) (e : elementdata) (context : option nat) : document * res nat :=
  let! d1, e1 := (if e_encodable e then encode d e context else (d, Ok e)) in
  let (s, r) := st_add max_element e_maybe_id e_assign_key (doc_elements d1) e1 in
  (doc_with_elements d1 s, r).

(* remove the first DataType::Element(child) of an element, if any (document.rs:290-293, 388-391) *)
Definition e_unlist (child : nat) (e : elementdata) : elementdata :=
  match e_index e child with
  | Some i => e_remove e i
  | None => e
  end.

(* document.rs:268-297  attach_element *)
Definition attach_element (d : document) (parent child : nat) : document * res unit :=
  match get_elementdata d parent with
  | None => (d, Err EInternal)
  | Some _ =>
      match get_elementdata d child with
      | None => (d, Err EInternal)
      | Some c =>
          let old := e_parent c in
          let d1 := upd_element d child (e_set_parent (Some parent)) in
          let d2 := upd_element d1 parent (fun e => e_push e (DElement child)) in
          (match old with
           | Some o => upd_element d2 o (e_unlist child)
           | None => d2
           end, Ok tt)
      end
  end.

(* document.rs:376-396  detach_element *)
Definition detach_element (d : document) (child : nat) : document * res unit :=
  match get_elementdata d child with
  | None => (d, Err EInternal)
  | Some c =>
      let old := e_parent c in
      let d1 := upd_element d child (e_set_parent None) in
      (match old with
       | Some o => upd_element d1 o (e_unlist child)
       | None => d1
       end, Ok tt)
  end.

(* document.rs:729-736  get_default_set *)
Definition get_default_set (d : document) (t : AnnotationType) : option string :=
  match get_default_key (doc_decls d) t with
  | Some dk => match get_declaration d dk with
               | Some dec => d_set dec
               | None => None
               end
  | None => None
  end.

(* ------------------------------------------------------------------ *)
(* element.rs:248-468  ReadElement, on an element attached to document [d] *)

(* element.rs:367-381: the key accessors unwrap *)
Definition r_class_key (e : elementdata) : res (option nat) := unwrap (e_class_key e).
Definition r_subset_key (e : elementdata) : res (option nat) := unwrap (e_subset_key e).
Definition r_declaration_key (e : elementdata) : res (option nat) := unwrap (e_declaration_key e).
Definition r_processor_key (e : elementdata) : res (option nat) := unwrap (e_processor_key e).

(* element.rs:388-398, 401-411 *)
Definition r_declaration (d : document) (e : elementdata) : res (option declaration) :=
  let? k := r_declaration_key e in Ok (obind k (get_declaration d)).
Definition r_processor_data (d : document) (e : elementdata) : res (option processor) :=
  let? k := r_processor_key e in Ok (obind k (get_processor d)).

(* element.rs:281-291  set *)
Definition r_set (d : document) (e : elementdata) : res (option string) :=
  let? dec := r_declaration d e in Ok (obind dec d_set).
(* element.rs:295-304  subset *)
Definition r_subset (d : document) (e : elementdata) : res (option string) :=
  let? dec := r_declaration d e in
  match dec with
  | Some dec => let? sk := r_subset_key e in Ok (obind sk (d_get_subset dec))
  | None => Ok None
  end.
(* element.rs:307-320  class *)
Definition r_class (d : document) (e : elementdata) : res (option string) :=
  let? ck := r_class_key e in
  match ck with
  | Some ck =>
      let? dec := r_declaration d e in
      match dec with
      | Some dec =>
          let? sk := r_subset_key e in
          match sk with
          | Some _ => Ok (d_get_subclass dec ck)
          | None => Ok (d_get_class dec ck)
          end
      | None => Ok None
      end
  | None => Ok None
  end.
(* element.rs:323-329  processor *)
Definition r_processor (d : document) (e : elementdata) : res (option string) :=
  let? p := r_processor_data d e in Ok (option_map pr_id p).

Fixpoint attribs_annotator (l : list Attribute) : option string :=
  match l with
  | [] => None
  | A_Annotator s :: _ => Some s
  | _ :: r => attribs_annotator r
  end.
Fixpoint attribs_annotatortype (l : list Attribute) : option ProcessorType :=
  match l with
  | [] => None
  | A_AnnotatorType s :: _ => Some s
  | _ :: r => attribs_annotatortype r
  end.
(* element.rs:332-344  annotator *)
Definition r_annotator (d : document) (e : elementdata) : res (option string) :=
  let? p := r_processor_data d e in
  match p with
  | Some p => Ok (Some (pr_name p))
  | None => Ok (attribs_annotator (e_attribs e))
  end.
(* element.rs:347-359  annotatortype *)
Definition r_annotatortype (d : document) (e : elementdata) : res (option ProcessorType) :=
  let? p := r_processor_data d e in
  match p with
  | Some p => Ok (Some (pr_type p))
  | None => Ok (attribs_annotatortype (e_attribs e))
  end.

(* element.rs:414-424  get_parent *)
Definition r_get_parent (d : document) (e : elementdata) : option elementdata :=
  obind (e_parent e) (get_elementdata d).
(* element.rs:427-438  get_index: key().expect only happens when an element item is met *)
Fixpoint index_loop (own : option nat) (i : nat) (l : list datatype) : res (option nat) :=
  match l with
  | [] => Ok None
  | DElement k :: r =>
      match own with
      | None => Panic
      | Some k' => if Nat.eqb k k' then Ok (Some i) else index_loop own (S i) r
      end
  | _ :: r => index_loop own (S i) r
  end.
Definition r_get_index (d : document) (e : elementdata) : res (option nat) :=
  match r_get_parent d e with
  | Some p => index_loop (e_key e) 0 (e_data p)
  | None => Ok None
  end.
(* element.rs:457-466  resolve *)
Definition r_resolve (d : document) (e : elementdata) : res (option elementdata) :=
  match e_idref e with
  | Some id => get_elementdata_by_id d id
  | None => Ok None
  end.
