(* Model of the mid- and high-level operations of /repo/src/document.rs *)
From Coq Require Import String List Bool Arith NArith.
From Verif Require Import Base Types SpecTable Attrib Element Store Metadata Document Select.
Import ListNotations.
Open Scope string_scope.

(* document.rs:319-325: first key of the reversed stack that matches *)
Fixpoint first_match (d : document) (s : selector) (l : list nat) : res (option nat) :=
  match l with
  | [] => Ok None
  | k :: r => let? m := matches s d (DElement k) in
              if m then Ok (Some k) else first_match d s r
  end.

Definition span_selector : selector := sel_elementgroup sel_elements (CIs EG_Span).

(* get_mut_elementdata_by_id(id): the key of an existing element; a dangling index entry panics *)
Definition key_by_id (d : document) (id : string) : res (option nat) :=
  match get_element_key_by_id d id with
  | None => Ok None
  | Some k => match get_elementdata d k with Some _ => Ok (Some k) | None => Panic end
  end.

(* document.rs:304-347: the wref case of post_add *)
Definition post_add_wref (fuel : nat) (d : document) (key : nat) (e : elementdata) (stack : option (list nat))
  : document * res unit :=
  match attribs_last_idref (e_attribs e) None with
  | None => (d, Err EParse)
  | Some idref =>
      let! d, span := (d, match stack with
                          | Some st => first_match d span_selector (rev st)
                          | None =>
                              let? a := anc_next fuel d span_selector key in
                              match a with
                              | Some k => let? k := key_of d k in Ok (Some k)
                              | None => Ok None
                              end
                          end) in
      match span with
      | None => (d, Err EParse)
      | Some sk =>
          let! d, target := (d, key_by_id d idref) in
          match target with
          | None => (d, Err EParse)
          | Some tk => (upd_element d tk (fun x => e_push x (DSpanReference sk)), Ok tt)
          end
      end
  end.

Definition layer_query : query := qb_set (qb_elementgroup q_select (CIs EG_Span)) CSome.

(* derived PartialEq of Option<AnnotationType> *)
Definition at_opt_eqb (a b : option AnnotationType) : bool :=
  match a, b with
  | Some x, Some y => at_eqb x y
  | None, None => true
  | _, _ => false
  end.

(* document.rs:348-366: the layer case: the declaration of the first span element with the layer's annotation type *)
Definition layer_declaration (fuel : nat) (d : document) (e : elementdata) : res (option nat) :=
  let? s := from_query d layer_query in
  let? own := expect (e_key e) in
  sel_find fuel d (mkSP s RAlways false true) (sel_init own)
    (fun _ x => if at_opt_eqb (et_annotationtype (e_type x)) (et_annotationtype (e_type e))
                then r_declaration_key x else Ok None).

(* document.rs:300-373  post_add. [stack] is Some only when called by the parser. *)
Definition post_add (fuel : nat) (d : document) (key : nat) (stack : option (list nat)) : document * res unit :=
  match get_elementdata d key with
  | None => (d, Err EKey)
  | Some e =>
      match e_type e with
      | ET_WordReference => post_add_wref fuel d key e stack
      | et =>
          if group_contains EG_Layer et && negb (e_has_attrib e AB_SET) then
            let! d, dk := (d, layer_declaration fuel d e) in
            match dk with
            | Some dk => (upd_element d key (fun x => e_with_attribs x [A_DeclarationRef dk]), Ok tt)
            | None => (d, Ok tt)
            end
          else (d, Ok tt)
      end
  end.

Definition is_add (x : datatype) : bool := match x with DAddElement _ => true | _ => false end.

(* document.rs:204-209, 237-242: set the parent of the added children and post-process them *)
Fixpoint link_children (fuel : nat) (d : document) (parent : nat) (l : list nat) : document * res unit :=
  match l with
  | [] => (d, Ok tt)
  | k :: r =>
      let d1 := upd_element d k (e_set_parent (Some parent)) in
      let! d2, _ := post_add fuel d1 k None in
      link_children fuel d2 parent r
  end.
Definition opt_list (o : option (list nat)) : list nat := match o with Some l => l | None => [] end.

(* document.rs:221-264  add_children *)
Fixpoint add_children (fuel : nat) (d : document) (e : elementdata) {struct e}
  : document * res (elementdata * option (list nat)) :=
  match e with
  | mkElem t attribs data key parent =>
      if existsb is_add data then
        let! d1, x := (fix go (d : document) (l : list datatype) {struct l} : document * res (list datatype * list nat) :=
           match l with
           | [] => (d, Ok ([], []))
           | DAddElement c :: r =>
               let! d1, x := add_children fuel d c in
               let! d2, ck := store_add d1 (fst x) None in
               let! d3, _ := link_children fuel d2 ck (opt_list (snd x)) in
               let! d4, y := go d3 r in
               (d4, Ok (DElement ck :: fst y, ck :: snd y))
           | DText s :: r => let! d1, y := go d r in (d1, Ok (DText s :: fst y, snd y))
           | DElement k :: r => let! d1, y := go d r in (d1, Ok (DElement k :: fst y, snd y))
           | DComment s :: r => let! d1, y := go d r in (d1, Ok (DComment s :: fst y, snd y))
           | DSpanReference k :: r => let! d1, y := go d r in (d1, Ok (DSpanReference k :: fst y, snd y))
           end) d data in
        (d1, Ok (mkElem t attribs (fst x) key parent, Some (snd x)))
      else (d, Ok (mkElem t attribs data key parent, None))
  end.

(* document.rs:174-177  add_element *)
Definition add_element (fuel : nat) (d : document) (e : elementdata) : document * res nat :=
  let! d1, x := add_children fuel d e in
  store_add d1 (fst x) None.

(* document.rs:198-218  add_element_to *)
Definition add_element_to (fuel : nat) (d : document) (parent : nat) (e : elementdata) : document * res nat :=
  let! d1, x := add_children fuel d e in
  let! d2, child := map_err EInternal (store_add d1 (fst x) (Some parent)) in
  let! d3, _ := link_children fuel d2 child (opt_list (snd x)) in
  let! d4, _ := attach_element d3 parent child in
  let! d5, _ := post_add fuel d4 child None in
  (d5, Ok child).

(* document.rs:741-757  check_element_addable *)
Definition check_element_addable (d : document) (parent : nat) (e : elementdata) : res unit :=
  match get_elementdata d parent with
  | None => Err EInternal
  | Some p =>
      if existsb (accepts_type (e_type e)) (p_accepted_data (props (e_type p))) then Ok tt
      else Err EValidation
  end.

(* document.rs:691-706  get_layer_key *)
Definition get_layer_key (fuel : nat) (d : document) (key : nat) (t : AnnotationType) (set : option string)
  : res (option nat) :=
  let? lt := ok_or (at_layertype t) EInternal in
  let? s := from_query d (qb_set (qb_element q_select (CIs lt))
                                 (match set with Some s => CIs s | None => CNone end)) in
  match get_elementdata d key with
  | None => Ok None
  | Some e =>
      let? own := expect (e_key e) in
      let? k := select_first fuel d own s RNo in
      match k with
      | Some k => Ok (obind (get_elementdata d k) e_key)
      | None => Ok None
      end
  end.

(* document.rs:708-724  get_span_keys; the attribute of type IDREF is always an Idref, so as_str is Ok *)
Fixpoint span_keys_loop (d : document) (l : list datatype) : list nat :=
  match l with
  | [] => []
  | DElement k :: r => k :: span_keys_loop d r
  | DAddElement e :: r =>
      match e_type e, e_attrib e AB_IDREF with
      | ET_WordReference, Some (A_Idref id) =>
          match get_element_key_by_id d id with
          | Some k => k :: span_keys_loop d r
          | None => span_keys_loop d r
          end
      | _, _ => span_keys_loop d r
      end
  | _ :: r => span_keys_loop d r
  end.
Definition get_span_keys (d : document) (e : elementdata) : list nat := span_keys_loop d (e_data e).

Definition accepted_eqb (a b : AcceptedData) : bool :=
  match a, b with
  | AcceptElementType x, AcceptElementType y => et_eqb x y
  | AcceptElementGroup x, AcceptElementGroup y => eg_eqb x y
  | _, _ => false
  end.

(* document.rs:550-552: can this ancestor hold the layer? *)
Definition suitable (d : document) (layertype : ElementType) (k : nat) : bool :=
  match get_elementdata d k with
  | Some e =>
      let acc := p_accepted_data (props (e_type e)) in
      existsb (accepted_eqb (AcceptElementGroup EG_Layer)) acc ||
      existsb (accepted_eqb (AcceptElementType layertype)) acc
  | None => false
  end.

(* document.rs:555-571, 577-592: find or add the layer under [holder], then add the element to it.
   [lookup] is the element under which the layer is looked up. *)
Definition add_in_layer (fuel : nat) (d : document) (lookup holder : nat) (t : AnnotationType)
    (layertype : ElementType) (set : option string) (e : elementdata) : document * res nat :=
  let! d, lk := (d, get_layer_key fuel d lookup t set) in
  let! d, lk := (match lk with
                 | Some k => (d, Ok k)
                 | None =>
                     let layer := match set with
                                  | Some s => e_set_attrib (e_new layertype) (A_Set s)
                                  | None => e_new layertype
                                  end in
                     let! d, _ := (d, check_element_addable d holder layer) in
                     add_element_to fuel d holder layer
                 end) in
  let! d, _ := (d, check_element_addable d lk e) in
  add_element_to fuel d lk e.

(* document.rs:593-596 etc: normal behaviour *)
Definition add_checked (fuel : nat) (d : document) (parent : nat) (e : elementdata) : document * res nat :=
  let! d, _ := (d, check_element_addable d parent e) in
  add_element_to fuel d parent e.

Definition structure_query : query := qb_elementgroup q_select (CIs EG_Structure).

(* document.rs:502-597  annotate *)
Definition annotate (fuel : nat) (d : document) (parent : nat) (e : elementdata) : document * res nat :=
  match get_elementdata d parent with
  | None => (d, Err EInternal)
  | Some p =>
      if group_contains EG_Span (e_type e) then
        let! d, t := (d, expect (et_annotationtype (e_type e))) in
        let! d, lt := (d, ok_or (at_layertype t) EInternal) in
        let spanned := p_wrefable (props (e_type p)) in
        let structure := negb spanned && group_contains EG_Structure (e_type p) in
        let! d, set := (d, if spanned || structure then
                             let? s := e_set e in
                             match s with
                             | Some s => Ok (Some s)
                             | None => match get_default_set d t with
                                       | Some s => Ok (Some s)
                                       | None => Err EIncomplete
                                       end
                             end
                           else Ok None) in
        if spanned then
          match get_span_keys d e with
          | [] => (d, Err EIncomplete)
          | ks =>
              let! d, s := (d, unwrap (from_query d structure_query)) in
              let! d, anc := (d, common_ancestors fuel d s ks) in
              match find (suitable d lt) anc with
              | Some a => add_in_layer fuel d parent a t lt set e
              | None => (d, Err EIncomplete)
              end
          end
        else if structure then add_in_layer fuel d parent parent t lt set e
        else add_checked fuel d parent e
      else add_checked fuel d parent e
  end.

(* document.rs:599-608  annotate_span *)
Definition annotate_span (fuel : nat) (d : document) (e : elementdata) : document * res nat :=
  if negb (group_contains EG_Span (e_type e)) then (d, Err EType)
  else match get_span_keys d e with
       | [] => (d, Err EIncomplete)
       | k :: _ => annotate fuel d k e
       end.

(* types.rs:796-800  BodyType; document.rs:55-60  DocumentProperties *)
Inductive bodytype : Set := BT_Text | BT_Speech.
Record docprops : Type := mkDP {
  dp_bodytype : bodytype;
  dp_autodeclare : bool;
  dp_declare : list (AnnotationType * option string);
  dp_processor : option processor }.
(* document.rs:62-71  Default *)
Definition dp_default : docprops := mkDP BT_Text true [(AT_TEXT, Some DEFAULT_TEXT_SET)] None.

(* document.rs:123-130 *)
Fixpoint apply_declares (d : document) (l : list (AnnotationType * option string)) : document * res unit :=
  match l with
  | [] => (d, Ok tt)
  | (t, set) :: r =>
      let! d1, dk := declare d t set None None in
      let! d2, _ := (match set with
                     | Some s => if String.eqb s DEFAULT_TEXT_SET then
                                   let! d2, _ := doc_add_class d1 dk "current" in (d2, Ok tt)
                                 else (d1, Ok tt)
                     | None => (d1, Ok tt)
                     end) in
      apply_declares d2 r
  end.
(* document.rs:118-132  apply_properties *)
Definition apply_properties (d : document) (p : docprops) : document * res unit :=
  let! d1, _ := (match dp_processor p with
                 | Some pr => let! d1, pk := add_processor d pr in (doc_with_active d1 (Some pk), Ok tt)
                 | None => (d, Ok tt)
                 end) in
  apply_declares d1 (dp_declare p).

Definition doc_empty (id : string) (autodeclare : bool) : document :=
  mkDoc id FOLIAVERSION None st_empty st_empty [] st_empty meta_default [] None autodeclare.

(* document.rs:94-116  Document::new *)
Definition doc_new (id : string) (p : docprops) : document * res unit :=
  let d0 := doc_empty id (dp_autodeclare p) in
  let body := e_new (match dp_bodytype p with BT_Text => ET_Text | BT_Speech => ET_Speech end) in
  let! d1, body := encode d0 body None in
  let! d2, _ := store_add d1 body None in
  apply_properties d2 p.
