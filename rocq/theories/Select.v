(* Model of /repo/src/query.rs and /repo/src/select.rs *)
From Coq Require Import String List Bool Arith NArith.
From Verif Require Import Base Types SpecTable Attrib Element Store Metadata Document.
Import ListNotations.
Open Scope string_scope.

(* query.rs:45-54  enum Cmp *)
Inductive cmp (A : Type) : Type :=
  | CAny | CIs (a : A) | CSome | CNone | CUnmatchable.
Arguments CAny {A}.
Arguments CIs {A} _.
Arguments CSome {A}.
Arguments CNone {A}.
Arguments CUnmatchable {A}.

(* query.rs:64-78  Cmp::matches *)
Definition cmp_matches {A} (eqb : A -> A -> bool) (c : cmp A) (other : option A) : bool :=
  match c with
  | CAny => true
  | CIs v => match other with Some w => eqb v w | None => false end
  | CNone => match other with None => true | Some _ => false end
  | CSome => match other with Some _ => true | None => false end
  | CUnmatchable => false
  end.

(* c == Cmp::Any / c == Cmp::Unmatchable *)
Definition cmp_is_any {A} (c : cmp A) : bool := match c with CAny => true | _ => false end.
Definition cmp_is_unmatchable {A} (c : cmp A) : bool := match c with CUnmatchable => true | _ => false end.

(* query.rs:29-41  struct Query (Action has one value; confidence: the f64 pattern) *)
Record query : Type := mkQuery {
  q_elementtype : cmp ElementType;
  q_elementgroup : cmp ElementGroup;
  q_contexttype : cmp ElementType;
  q_set : cmp string;
  q_class : cmp string;
  q_processor : cmp string;
  q_subset : cmp string;
  q_annotator : cmp string;
  q_annotatortype : cmp ProcessorType;
  q_confidence : cmp N }.

(* query.rs:143-145  Query::select *)
Definition q_select : query := mkQuery CAny CAny CAny CAny CAny CAny CAny CAny CAny CAny.
(* query.rs:82-140  builders *)
Definition qb_element (q : query) v := mkQuery v (q_elementgroup q) (q_contexttype q) (q_set q) (q_class q) (q_processor q) (q_subset q) (q_annotator q) (q_annotatortype q) (q_confidence q).
Definition qb_elementgroup (q : query) v := mkQuery (q_elementtype q) v (q_contexttype q) (q_set q) (q_class q) (q_processor q) (q_subset q) (q_annotator q) (q_annotatortype q) (q_confidence q).
Definition qb_contexttype (q : query) v := mkQuery (q_elementtype q) (q_elementgroup q) v (q_set q) (q_class q) (q_processor q) (q_subset q) (q_annotator q) (q_annotatortype q) (q_confidence q).
Definition qb_set (q : query) v := mkQuery (q_elementtype q) (q_elementgroup q) (q_contexttype q) v (q_class q) (q_processor q) (q_subset q) (q_annotator q) (q_annotatortype q) (q_confidence q).
Definition qb_class (q : query) v := mkQuery (q_elementtype q) (q_elementgroup q) (q_contexttype q) (q_set q) v (q_processor q) (q_subset q) (q_annotator q) (q_annotatortype q) (q_confidence q).
Definition qb_processor (q : query) v := mkQuery (q_elementtype q) (q_elementgroup q) (q_contexttype q) (q_set q) (q_class q) v (q_subset q) (q_annotator q) (q_annotatortype q) (q_confidence q).
Definition qb_subset (q : query) v := mkQuery (q_elementtype q) (q_elementgroup q) (q_contexttype q) (q_set q) (q_class q) (q_processor q) v (q_annotator q) (q_annotatortype q) (q_confidence q).
Definition qb_annotator (q : query) v := mkQuery (q_elementtype q) (q_elementgroup q) (q_contexttype q) (q_set q) (q_class q) (q_processor q) (q_subset q) v (q_annotatortype q) (q_confidence q).
Definition qb_annotatortype (q : query) v := mkQuery (q_elementtype q) (q_elementgroup q) (q_contexttype q) (q_set q) (q_class q) (q_processor q) (q_subset q) (q_annotator q) v (q_confidence q).
Definition qb_confidence (q : query) v := mkQuery (q_elementtype q) (q_elementgroup q) (q_contexttype q) (q_set q) (q_class q) (q_processor q) (q_subset q) (q_annotator q) (q_annotatortype q) v.

(* select.rs:306-310  enum DataTypeSelector *)
Inductive dts : Set := DS_Elements | DS_Text | DS_Comments.
Definition dts_eqb (a b : dts) : bool :=
  match a, b with
  | DS_Elements, DS_Elements | DS_Text, DS_Text | DS_Comments, DS_Comments => true
  | _, _ => false
  end.

(* select.rs:21-35  struct Selector *)
Inductive selector : Type := mkSel {
  s_datatypes : list dts;
  s_elementtype : cmp ElementType;
  s_elementgroup : cmp ElementGroup;
  s_contexttype : cmp ElementType;
  s_set : cmp nat;
  s_class : cmp nat;
  s_processor : cmp nat;
  s_subset : cmp nat;
  s_confidence : cmp N;
  s_annotator : cmp string;
  s_annotatortype : cmp ProcessorType;
  s_next : option selector }.

(* Selector::default(), derived *)
Definition sel_default : selector := mkSel [] CAny CAny CAny CAny CAny CAny CAny CAny CAny CAny None.
(* select.rs:176-180  Selector::elements *)
Definition sel_elements : selector := mkSel [DS_Elements] CAny CAny CAny CAny CAny CAny CAny CAny CAny CAny None.
(* select.rs:183-185  Selector::all_data *)
Definition sel_all_data : selector :=
  mkSel [DS_Elements; DS_Text; DS_Comments] CAny CAny CAny CAny CAny CAny CAny CAny CAny CAny None.
(* select.rs:169-172  element *)
Definition sel_element (s : selector) v := mkSel (s_datatypes s) v (s_elementgroup s) (s_contexttype s) (s_set s) (s_class s) (s_processor s) (s_subset s) (s_confidence s) (s_annotator s) (s_annotatortype s) (s_next s).
(* select.rs:188-191  elementgroup *)
Definition sel_elementgroup (s : selector) v := mkSel (s_datatypes s) (s_elementtype s) v (s_contexttype s) (s_set s) (s_class s) (s_processor s) (s_subset s) (s_confidence s) (s_annotator s) (s_annotatortype s) (s_next s).
(* select.rs:194-197  and *)
Definition sel_and (s : selector) (n : selector) := mkSel (s_datatypes s) (s_elementtype s) (s_elementgroup s) (s_contexttype s) (s_set s) (s_class s) (s_processor s) (s_subset s) (s_confidence s) (s_annotator s) (s_annotatortype s) (Some n).
(* select.rs:151-166  with_elements / with_text / with_comments *)
Definition sel_with_datatype (s : selector) (x : dts) := mkSel (s_datatypes s ++ [x]) (s_elementtype s) (s_elementgroup s) (s_contexttype s) (s_set s) (s_class s) (s_processor s) (s_subset s) (s_confidence s) (s_annotator s) (s_annotatortype s) (s_next s).

(* select.rs:59-67, 71-82: find the declaration of (annotation type of the element type, set) *)
Definition encode_set (d : document) (src : cmp ElementType) (set : option string) : cmp nat :=
  match src with
  | CIs et =>
      match et_annotationtype et with
      | Some t => match get_declaration_key_by_id d (index_id t set) with
                  | Some k => CIs k
                  | None => CUnmatchable
                  end
      | None => CUnmatchable
      end
  | _ => CUnmatchable
  end.

(* select.rs:43-147  Selector::from_query. The annotator, annotatortype and confidence criteria of the
   query are not copied. *)
Definition from_query (d : document) (q : query) : res selector :=
  let src := match q_subset q with
             | CSome | CIs _ => q_contexttype q
             | _ => q_elementtype q
             end in
  let set := match q_set q with
             | CIs s => encode_set d src (Some s)
             | CAny => CAny
             | CSome => CSome
             | CNone => encode_set d src None
             | CUnmatchable => CUnmatchable
             end in
  let? subset := match q_subset q with
                 | CIs s =>
                     match set with
                     | CIs dk =>
                         Ok (match obind (get_declaration d dk) (fun dec => d_subset_key dec s) with
                             | Some k => CIs k
                             | None => CUnmatchable
                             end)
                     | _ => Err EQuery
                     end
                 | CAny => Ok CAny
                 | CSome => Ok CSome
                 | CNone => Ok CNone
                 | CUnmatchable => Ok CUnmatchable
                 end in
  let class := match q_class q with
               | CIs c =>
                   match set with
                   | CIs dk =>
                       match obind (get_declaration d dk) (fun dec =>
                               match subset with
                               | CIs _ | CSome => d_subclass_key dec c
                               | _ => d_class_key dec c
                               end) with
                       | Some k => CIs k
                       | None => CUnmatchable
                       end
                   | _ => CUnmatchable
                   end
               | CAny => CAny
               | CSome => CSome
               | CNone => CNone
               | CUnmatchable => CUnmatchable
               end in
  let proc := match q_processor q with
              | CIs p => match get_processor_key_by_id d p with
                         | Some k => CIs k
                         | None => CUnmatchable
                         end
              | CAny => CAny
              | CSome => CSome
              | CNone => CNone
              | CUnmatchable => CUnmatchable
              end in
  Ok (mkSel [DS_Elements] (q_elementtype q) (q_elementgroup q) (q_contexttype q)
            set class proc subset CAny CAny CAny None).

(* select.rs:203-207  matchable *)
Definition matchable (s : selector) : bool :=
  negb (cmp_is_unmatchable (s_set s)) && negb (cmp_is_unmatchable (s_class s)) &&
  negb (cmp_is_unmatchable (s_processor s)).

(* (c == Cmp::Any || c.matches(accessor)): the accessor, which may panic, is only run if c is not Any *)
Definition crit {A} (eqb : A -> A -> bool) (c : cmp A) (acc : res (option A)) : res bool :=
  if cmp_is_any c then Ok true
  else let? v := acc in Ok (cmp_matches eqb c v).

Definition group_crit (c : cmp ElementGroup) (et : ElementType) : bool :=
  match c with
  | CIs g => group_contains g et
  | CAny | CSome => true
  | CNone | CUnmatchable => false
  end.

(* select.rs:211-246  matches *)
Fixpoint matches (s : selector) (d : document) (item : datatype) {struct s} : res bool :=
  match s with
  | mkSel dtypes etype egroup _ set class proc subset _ annotator annotatortype next =>
      let this :=
        match item with
        | DElement key | DSpanReference key =>
            if negb (match dtypes with [] => true | _ => false end)
               && negb (existsb (dts_eqb DS_Elements) dtypes) then Ok false
            else
              match get_elementdata d key with
              | Some e =>
                  rand (Ok (group_crit egroup (e_type e)))
                  (rand (crit et_eqb etype (Ok (Some (e_type e))))
                  (rand (crit Nat.eqb set (r_declaration_key e))
                  (rand (crit Nat.eqb subset (r_subset_key e))
                  (rand (crit Nat.eqb class (r_class_key e))
                  (rand (crit Nat.eqb proc (r_processor_key e))
                  (rand (crit String.eqb annotator (r_annotator d e))
                        (crit pt_eqb annotatortype (r_annotatortype d e))))))))
              | None => Ok false
              end
        | DText _ => Ok (existsb (dts_eqb DS_Text) dtypes)
        | DComment _ => Ok (existsb (dts_eqb DS_Comments) dtypes)
        | DAddElement _ => Ok false
        end in
      match next with
      | Some n => ror this (matches n d item)
      | None => this
      end
  end.

(* select.rs:253-258  enum Recursion *)
Inductive recursion : Type :=
  | RNo | RLimitedTo (l : list AcceptedData) | RExceptFor (l : list AcceptedData) | RAlways.

Definition accepts_type (et : ElementType) (a : AcceptedData) : bool :=
  match a with
  | AcceptElementType t => et_eqb t et
  | AcceptElementGroup g => group_contains g et
  end.

(* select.rs:261-300  Recursion::eval *)
Definition rec_eval (r : recursion) (et : ElementType) : bool :=
  match r with
  | RNo => false
  | RAlways => true
  | RLimitedTo l => existsb (accepts_type et) l
  | RExceptFor l => negb (existsb (accepts_type et) l)
  end.

(* select.rs:315-334  SelectIterator: the fixed part and the mutable part *)
Record selparams : Type := mkSP {
  sp_sel : selector; sp_rec : recursion; sp_inclusive : bool; sp_spanrefs : bool }.
Record selstate : Type := mkSS {
  ss_stack : list (nat * nat);   (* top first *)
  ss_iteration : nat;
  ss_returned : list bool;
  ss_offset : nat }.

(* select.rs:339-351  SelectIterator::new *)
Definition sel_init (key : nat) : selstate := mkSS [(key, 0)] 0 [] 0.

(* select.rs:362-368  SelectItem *)
Record selectitem : Type := mkItem {
  si_data : datatype; si_parent : nat; si_cursor : nat; si_depth : nat }.

(* select.rs:463-502  already_returned, on (returned, returned_offset) *)
Definition already_returned (returned : list bool) (offset : nat) (key : nat) : bool * (list bool * nat) :=
  let offset := match returned with [] => if Nat.eqb offset 0 then key else offset | _ => offset end in
  if Nat.ltb key offset then
    let l := offset - key in
    (false, ((true :: repeat false (l - 1) ++ returned)%list, key))
  else
    let i := key - offset in
    if Nat.leb (List.length returned) i then
      let grown := (returned ++ repeat false (S i - List.length returned))%list in
      (false, (set_nth i true grown, offset))
    else
      match nth_error returned i with
      | Some true => (true, (returned, offset))
      | _ => (false, (set_nth i true returned, offset))
      end.

(* select.rs:418-429: does the matched item pass the duplicate check? *)
Definition dedup (d : document) (p : selparams) (item : datatype) (returned : list bool) (offset : nat)
  : bool * (list bool * nat) :=
  if sp_spanrefs p then
    match item with
    | DSpanReference k => let (b, st) := already_returned returned offset k in (negb b, st)
    | DElement k =>
        match get_elementdata d k with
        | Some e =>
            if group_contains EG_Span (e_type e) then
              let (b, st) := already_returned returned offset k in (negb b, st)
            else (true, (returned, offset))
        | None => (true, (returned, offset))
        end
    | _ => (true, (returned, offset))
    end
  else (true, (returned, offset)).

(* one call of next() up to its return or its tail call self.next() *)
Inductive selstep : Type :=
  | Yield (i : selectitem) (s : selstate)   (* return Some(i) *)
  | Again (s : selstate)                    (* tail call *)
  | Stop (s : selstate)                     (* return None *)
  | StepPanic.

(* select.rs:391-410: the inclusive root item. elementstore.root is DataType::Element(0). *)
Definition root_item (d : document) (key : nat) : res (option (datatype * nat)) :=
  match get_elementdata d key with
  | None => Ok None
  | Some e =>
      let parent := match e_parent e with Some p => p | None => key end in
      if Nat.eqb parent key then Ok (Some (DElement 0, parent))
      else
        match get_elementdata d parent with
        | None => Panic
        | Some pe =>
            match e_index pe key with
            | None => Panic
            | Some i => match e_data_at pe i with
                        | Some it => Ok (Some (it, parent))
                        | None => Panic
                        end
            end
        end
  end.

(* select.rs:411-455: pop, advance, push, test *)
Definition sel_advance (d : document) (p : selparams) (st : selstate) : selstep :=
  match ss_stack st with
  | [] => Stop st
  | (key, cursor) :: rest =>
      match get_elementdata d key with
      | None => StepPanic
      | Some parent =>
          match e_data_at parent cursor with
          | None => Again (mkSS rest (ss_iteration st) (ss_returned st) (ss_offset st))
          | Some item =>
              let stack1 := (key, S cursor) :: rest in
              let depth := List.length stack1 in
              let stack2 := if rec_eval (sp_rec p) (e_type parent) then
                              match item with DElement k => (k, 0) :: stack1 | _ => stack1 end
                            else stack1 in
              match matches (sp_sel p) d item with
              | Ok true =>
                  let '(ret, (returned, offset)) := dedup d p item (ss_returned st) (ss_offset st) in
                  let st' := mkSS stack2 (ss_iteration st) returned offset in
                  if ret then Yield (mkItem item key cursor depth) st' else Again st'
              | Ok false => Again (mkSS stack2 (ss_iteration st) (ss_returned st) (ss_offset st))
              | _ => StepPanic
              end
          end
      end
  end.

(* select.rs:382-456  SelectIterator::next *)
Definition sel_step (d : document) (p : selparams) (st0 : selstate) : selstep :=
  let st := mkSS (ss_stack st0) (S (ss_iteration st0)) (ss_returned st0) (ss_offset st0) in
  let first := Nat.eqb (ss_iteration st) 1 in
  if first && negb (matchable (sp_sel p)) then Stop st
  else if sp_inclusive p && first then
    match ss_stack st with
    | [] => sel_advance d p st
    | (key, _) :: _ =>
        match root_item d key with
        | Ok (Some (item, parent)) =>
            match matches (sp_sel p) d item with
            | Ok true => Yield (mkItem item parent 0 0) st
            | Ok false => sel_advance d p st
            | _ => StepPanic
            end
        | Ok None => sel_advance d p st
        | _ => StepPanic
        end
    end
  else sel_advance d p st.

(* next() with its tail recursion *)
Fixpoint sel_next (fuel : nat) (d : document) (p : selparams) (st : selstate) : res (option selectitem * selstate) :=
  match fuel with
  | 0 => OutOfFuel
  | S f => match sel_step d p st with
           | Yield i st' => Ok (Some i, st')
           | Again st' => sel_next f d p st'
           | Stop st' => Ok (None, st')
           | StepPanic => Panic
           end
  end.

(* for item in iterator: all items until None *)
Fixpoint sel_collect (fuel : nat) (d : document) (p : selparams) (st : selstate) : res (list selectitem) :=
  match fuel with
  | 0 => OutOfFuel
  | S f => match sel_step d p st with
           | Yield i st' => let? l := sel_collect f d p st' in Ok (i :: l)
           | Again st' => sel_collect f d p st'
           | Stop _ => Ok []
           | StepPanic => Panic
           end
  end.

(* select.rs:516-518, 545-547  select_data_by_key *)
Definition select_data_by_key (fuel : nat) (d : document) (key : nat) (s : selector) (r : recursion)
    (inclusive spanrefs : bool) : res (list selectitem) :=
  sel_collect fuel d (mkSP s r inclusive spanrefs) (sel_init key).

(* select.rs:583-599  SelectElementsIterator::next over the whole iteration: keys of the elements *)
Fixpoint items_keys (d : document) (l : list selectitem) : res (list nat) :=
  match l with
  | [] => Ok []
  | i :: r =>
      match si_data i with
      | DElement k | DSpanReference k =>
          match get_elementdata d k with
          | Some _ => let? ks := items_keys d r in Ok (k :: ks)
          | None => Panic
          end
      | _ => items_keys d r
      end
  end.
(* select.rs:620-647  select_by_key *)
Definition select_by_key (fuel : nat) (d : document) (key : nat) (s : selector) (r : recursion)
    (inclusive spanrefs : bool) : res (list nat) :=
  let? l := select_data_by_key fuel d key s r inclusive spanrefs in items_keys d l.

(* select.rs:613-615, 634-636  select: not inclusive, with span references *)
Definition select (fuel : nat) (d : document) (key : nat) (s : selector) (r : recursion) : res (list nat) :=
  select_by_key fuel d key s r false true.

(* SelectElementsIterator::next called once: skips items that are not elements *)
Fixpoint sel_first (fuel : nat) (d : document) (p : selparams) (st : selstate) : res (option nat) :=
  match fuel with
  | 0 => OutOfFuel
  | S f => match sel_step d p st with
           | Yield i st' =>
               match si_data i with
               | DElement k | DSpanReference k =>
                   match get_elementdata d k with
                   | Some _ => Ok (Some k)
                   | None => Panic
                   end
               | _ => sel_first f d p st'
               end
           | Again st' => sel_first f d p st'
           | Stop _ => Ok None
           | StepPanic => Panic
           end
  end.

(* select(..).next() *)
Definition select_first (fuel : nat) (d : document) (key : nat) (s : selector) (r : recursion) : res (option nat) :=
  sel_first fuel d (mkSP s r false true) (sel_init key).

(* a loop over select(..) that stops at the first element satisfying [f]; [f] may panic *)
Fixpoint sel_find (fuel : nat) (d : document) (p : selparams) (st : selstate)
    (f : nat -> elementdata -> res (option nat)) : res (option nat) :=
  match fuel with
  | 0 => OutOfFuel
  | S n => match sel_step d p st with
           | Yield i st' =>
               match si_data i with
               | DElement k | DSpanReference k =>
                   match get_elementdata d k with
                   | Some e => let? r := f k e in
                               match r with
                               | Some x => Ok (Some x)
                               | None => sel_find n d p st' f
                               end
                   | None => Panic
                   end
               | _ => sel_find n d p st' f
               end
           | Again st' => sel_find n d p st' f
           | Stop _ => Ok None
           | StepPanic => Panic
           end
  end.

(* ------------------------------------------------------------------ *)
(* select.rs:650-707  AncestorIterator. Its recursion field is always Recursion::Always (lines 692, 700),
   so the call of eval in line 672 is true. *)

(* select.rs:661-679  next(): the next matching ancestor *)
Fixpoint anc_next (fuel : nat) (d : document) (s : selector) (key : nat) : res (option nat) :=
  match fuel with
  | 0 => OutOfFuel
  | S f =>
      match get_elementdata d key with
      | None => Ok None
      | Some e =>
          match e_parent e with
          | None => Ok None
          | Some p =>
              match matches s d (DElement p) with
              | Ok true => match get_elementdata d p with Some _ => Ok (Some p) | None => Panic end
              | Ok false => match get_elementdata d p with
                            | Some _ => anc_next f d s p
                            | None => Panic
                            end
              | _ => Panic
              end
          end
      end
  end.

(* for ancestor in iterator *)
Fixpoint ancestors (fuel : nat) (d : document) (s : selector) (key : nat) : res (list nat) :=
  match fuel with
  | 0 => OutOfFuel
  | S f =>
      match get_elementdata d key with
      | None => Ok []
      | Some e =>
          match e_parent e with
          | None => Ok []
          | Some p =>
              match matches s d (DElement p) with
              | Ok true => match get_elementdata d p with
                           | Some _ => let? l := ancestors f d s p in Ok (p :: l)
                           | None => Panic
                           end
              | Ok false => match get_elementdata d p with
                            | Some _ => ancestors f d s p
                            | None => Panic
                            end
              | _ => Panic
              end
          end
      end
  end.

(* element.key().expect(..) of the element stored at position k *)
Definition key_of (d : document) (k : nat) : res nat :=
  match get_elementdata d k with
  | Some e => expect (e_key e)
  | None => Panic
  end.
Fixpoint keys_of (d : document) (l : list nat) : res (list nat) :=
  match l with
  | [] => Ok []
  | k :: r => let? x := key_of d k in let? xs := keys_of d r in Ok (x :: xs)
  end.

(* select.rs:709-722  common_ancestors *)
Fixpoint common_loop (fuel : nat) (d : document) (s : selector) (result : list nat) (l : list nat) : res (list nat) :=
  match l with
  | [] => Ok result
  | k :: r =>
      match get_elementdata d k with
      | None => common_loop fuel d s result r
      | Some e =>
          let? own := expect (e_key e) in
          let? anc := ancestors fuel d s own in
          let? anc := keys_of d anc in
          common_loop fuel d s
            (match result with
             | [] => anc
             | _ => filter (fun a => mem_nat a anc) result
             end) r
      end
  end.
Definition common_ancestors (fuel : nat) (d : document) (s : selector) (l : list nat) : res (list nat) :=
  common_loop fuel d s [] l.

(* ------------------------------------------------------------------ *)
(* element.rs:529-614  high-level getters on the element stored at [key] *)

(* from_query(..).expect(..) *)
Definition from_query_expect (d : document) (q : query) : res selector := unwrap (from_query d q).

(* element.rs:541-543  get_elements *)
Definition get_elements (fuel : nat) (d : document) (key : nat) (et : ElementType) (set : cmp string) (r : recursion)
  : res (list nat) :=
  let? s := from_query_expect d (qb_set (qb_element q_select (CIs et)) set) in
  select fuel d key s r.
(* element.rs:547-553  get_element *)
Definition get_element (fuel : nat) (d : document) (key : nat) (et : ElementType) (set : cmp string) (r : recursion)
  : res (option nat) :=
  let? s := from_query_expect d (qb_set (qb_element q_select (CIs et)) set) in
  select_first fuel d key s r.
(* element.rs:535-537  get_annotations; 529-531 get_annotation *)
Definition get_annotations (fuel : nat) (d : document) (key : nat) (t : AnnotationType) (set : cmp string) (r : recursion) :=
  get_elements fuel d key (at_elementtype t) set r.
Definition get_annotation (fuel : nat) (d : document) (key : nat) (t : AnnotationType) (set : cmp string) (r : recursion) :=
  get_element fuel d key (at_elementtype t) set r.
(* element.rs:557-570  the query of get_features *)
Definition features_query (et : ElementType) (set : option string) (subset : cmp string) : query :=
  qb_subset (qb_set (qb_contexttype (qb_element q_select (CIs ET_Feature)) (CIs et))
                    (match set with Some s => CIs s | None => CNone end)) subset.
Definition get_features (fuel : nat) (d : document) (key : nat) (subset : cmp string) : res (list nat) :=
  match get_elementdata d key with
  | None => Ok []
  | Some e =>
      let? set := r_set d e in
      let? s := from_query_expect d (features_query (e_type e) set subset) in
      select fuel d key s RNo
  end.
(* element.rs:575-581  get_feature *)
Definition get_feature (fuel : nat) (d : document) (key : nat) (subset : cmp string) : res (option nat) :=
  match get_elementdata d key with
  | None => Ok None
  | Some e =>
      let? set := r_set d e in
      let? s := from_query_expect d (features_query (e_type e) set subset) in
      select_first fuel d key s RNo
  end.
(* element.rs:605-607, 611-613  get_ancestors / get_ancestors_by_group *)
Definition get_ancestors (fuel : nat) (d : document) (key : nat) (et : ElementType) (set : cmp string) : res (list nat) :=
  let? s := from_query_expect d (qb_set (qb_element q_select (CIs et)) set) in ancestors fuel d s key.
Definition get_ancestors_by_group (fuel : nat) (d : document) (key : nat) (g : ElementGroup) (set : cmp string) : res (list nat) :=
  let? s := from_query_expect d (qb_set (qb_elementgroup q_select (CIs g)) set) in ancestors fuel d s key.
(* element.rs:585-601  get_ancestor / get_ancestor_by_group *)
Definition get_ancestor (fuel : nat) (d : document) (key : nat) (et : ElementType) (set : cmp string) : res (option nat) :=
  let? s := from_query_expect d (qb_set (qb_element q_select (CIs et)) set) in anc_next fuel d s key.
Definition get_ancestor_by_group (fuel : nat) (d : document) (key : nat) (g : ElementGroup) (set : cmp string) : res (option nat) :=
  let? s := from_query_expect d (qb_set (qb_elementgroup q_select (CIs g)) set) in anc_next fuel d s key.
