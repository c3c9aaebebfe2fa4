(* Specification vocabulary for serialisation: well nested events, and the XML of an element given by recursion on
   its content. Written without reference to the serialiser's loop. *)
From Coq Require Import String List Bool Arith NArith.
From Verif Require Import Base Types SpecTable Attrib Element Store Metadata Document Xml.
Import ListNotations.
Open Scope list_scope.

(* every start tag is closed by an end tag of the same name, around a well nested body *)
Inductive nested_events : list wevent -> Prop :=
  | nested_nil : nested_events []
  | nested_text s l : nested_events l -> nested_events (WText s :: l)
  | nested_comment s l : nested_events l -> nested_events (WComment s :: l)
  | nested_empty n a l : nested_events l -> nested_events (WEmpty n a :: l)
  | nested_element n a body l : nested_events body -> nested_events l -> nested_events (WStart n a :: body ++ WEnd n :: l).

(* ---------------------------------------------------------------- the attributes in a tag *)
(* attributes written under their own name and with their own value: all but the references into the declarations *)
Definition visible (a : Attribute) : bool :=
  match a with
  | A_Ignore | A_DeclarationRef _ | A_ClassRef _ | A_ProcessorRef _ | A_SubsetRef _ => false
  | _ => true
  end.
Definition shown (O : oracle) (a : Attribute) (p : string * string) : Prop :=
  fst p = ab_as_str (attribtype a) /\ a_display O a = Ok (snd p).
(* declaration k is the only one for its annotation type *)
Definition sole_declaration (d : document) (k : nat) : Prop :=
  exists dec, get_declaration d k = Some dec /\ forall j dec', get_declaration d j = Some dec' -> d_type dec' = d_type dec -> j = k.
(* processor p is the only one listed with declaration k *)
Definition sole_processor (d : document) (k p : nat) : Prop := exists dec, get_declaration d k = Some dec /\ d_processors dec = [p].
Definition given (name : string) (v : option string) : list (string * string) := match v with Some v => [(name, v)] | None => [] end.

(* An element that refers to a declaration shows its set (unless it is a feature or there is no other declaration of
   that type), its subset, its class and its processor (unless that is the only one of the declaration). *)
Definition tag_attributes (O : oracle) (d : document) (e : elementdata) (l : list (string * string)) : Prop :=
  exists own set subset class proc,
    l = own ++ given "set" set ++ given "subset" subset ++ given "class" class ++ given "processor" proc /\
    Forall2 (shown O) (filter visible (e_attribs e)) own /\
    match r_declaration_key e with
    | Ok (Some dk) =>
        (sole_declaration d dk \/ e_type e = ET_Feature -> set = None) /\
        (~ sole_declaration d dk -> e_type e <> ET_Feature -> r_set d e = Ok set) /\
        r_subset d e = Ok subset /\ r_class d e = Ok class /\
        (forall p, r_processor_key e = Ok (Some p) -> sole_processor d dk p -> proc = None) /\
        ((forall p, r_processor_key e = Ok (Some p) -> ~ sole_processor d dk p) -> r_processor d e = Ok proc)
    | _ => set = None /\ subset = None /\ class = None /\ proc = None
    end.

(* ---------------------------------------------------------------- the element and its content *)
Definition line_break : list wevent := [WText nl].
Definition markup (t : ElementType) : bool := existsb (et_eqb t) (group_elementtypes EG_TextMarkup).
(* a line break follows the start tag, except in text *)
Definition after_start (t : ElementType) : list wevent :=
  if markup t || et_eqb t ET_TextContent || et_eqb t ET_PhonContent then [] else line_break.
(* a line break follows the end tag, except after markup and at the very end *)
Definition after_end (final : bool) (t : ElementType) : list wevent := if final || markup t then [] else line_break.

Definition is_nil {A} (l : list A) : bool := match l with [] => true | _ => false end.
(* [xml_of final k l]: l is the XML of element k; [final]: nothing is written after it *)
Inductive xml_of (O : oracle) (d : document) : bool -> nat -> list wevent -> Prop :=
  | xml_empty final k e a : get_elementdata d k = Some e -> e_data e = [] -> tag_attributes O d e a ->
      xml_of O d final k (WEmpty (et_as_str (e_type e)) a :: after_start (e_type e))
  | xml_full final k e a body : get_elementdata d k = Some e -> e_data e <> [] -> tag_attributes O d e a ->
      xml_content O d final (e_data e) body ->
      xml_of O d final k (WStart (et_as_str (e_type e)) a :: after_start (e_type e) ++ body ++ WEnd (et_as_str (e_type e)) :: after_end final (e_type e))
with xml_content (O : oracle) (d : document) : bool -> list datatype -> list wevent -> Prop :=
  | xml_nothing final : xml_content O d final [] []
  | xml_text final s rest l : xml_content O d final rest l -> xml_content O d final (DText s :: rest) (WText s :: l)
  | xml_comment final s rest l : xml_content O d final rest l -> xml_content O d final (DComment s :: rest) (WComment s :: l)
  | xml_span final s rest l : xml_content O d final rest l -> xml_content O d final (DSpanReference s :: rest) l
  | xml_child final c rest lc l : xml_of O d (final && is_nil rest) c lc -> xml_content O d final rest l ->
      xml_content O d final (DElement c :: rest) (lc ++ l).
