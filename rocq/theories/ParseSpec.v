(* Specification vocabulary for parsing: an XML tree, the events a reader delivers for it, and what it means that the
   elements of a document are that tree. Written without reference to the parser's loop. *)
From Coq Require Import String Ascii List Bool Arith NArith.
From Verif Require Import Base Types SpecTable Attrib Element Store Metadata Document Xml Spec.
Import ListNotations.
Open Scope list_scope.

(* Content of an XML element. XForeign: a tag that is not in the FoLiA namespace; XOther: anything that is neither
   element, text nor comment. *)
Inductive xnode : Type :=
  | XElement (name : string) (attrs : xattrs) (inside : list xnode)
  | XForeign (name : string) (attrs : xattrs) (inside : list xnode)
  | XText (s : string)
  | XCData (s : string)
  | XComment (s : string)
  | XOther.

(* the events of a sequence of nodes; an element with nothing inside may be one empty tag *)
Inductive xml_events : list xnode -> list event -> Prop :=
  | ev_nil : xml_events [] []
  | ev_element name attrs inside l rest m : xml_events inside l -> xml_events rest m ->
      xml_events (XElement name attrs inside :: rest) (EvStart NsFolia name attrs :: l ++ EvEnd NsFolia name :: m)
  | ev_empty name attrs rest m : xml_events rest m -> xml_events (XElement name attrs [] :: rest) (EvEmpty NsFolia name attrs :: m)
  | ev_foreign ns name attrs inside l rest m : ns <> NsFolia -> xml_events inside l -> xml_events rest m ->
      xml_events (XForeign name attrs inside :: rest) (EvStart ns name attrs :: l ++ EvEnd ns name :: m)
  | ev_foreign_empty ns name attrs rest m : ns <> NsFolia -> xml_events rest m -> xml_events (XForeign name attrs [] :: rest) (EvEmpty ns name attrs :: m)
  | ev_text s rest m : xml_events rest m -> xml_events (XText s :: rest) (EvText (Some s) :: m)
  | ev_cdata s rest m : xml_events rest m -> xml_events (XCData s :: rest) (EvCData (Some s) :: m)
  | ev_comment s rest m : xml_events rest m -> xml_events (XComment s :: rest) (EvComment (Some s) :: m)
  | ev_other rest m : xml_events rest m -> xml_events (XOther :: rest) (EvOther :: m).

(* ---------------------------------------------------------------- attributes *)
(* the name is that of a feature subset for which elements of this type have a shortcut *)
Definition shortcut (t : ElementType) (name : string) : Prop :=
  exists f, In (AcceptElementType f) (p_accepted_data (props t)) /\ In f (group_elementtypes EG_Feature) /\ p_subset (props f) = Some name.
(* how the attributes in a tag of type t are read: proper attributes, and features (subset, class) written as attributes *)
Inductive reads_attributes (O : oracle) (t : ElementType) : xattrs -> list Attribute -> list (string * string) -> Prop :=
  | reads_none : reads_attributes O t [] [] []
  | reads_attribute x a rest own feats : parse_attrib O (xa_key x) (xa_val x) = Ok a -> reads_attributes O t rest own feats ->
      reads_attributes O t (Some x :: rest) (a :: own) feats
  | reads_feature x v err rest own feats : parse_attrib O (xa_key x) (xa_val x) = Err err -> xa_val x = Some v -> shortcut t (xa_key x) ->
      reads_attributes O t rest own feats -> reads_attributes O t (Some x :: rest) own ((xa_key x, v) :: feats).

(* ---------------------------------------------------------------- the tree *)
(* the characters with the Unicode property White_Space, in UTF-8 *)
Definition bytes (l : list nat) : string := string_of_list_ascii (map ascii_of_nat l).
Definition white_space : list string :=
  map bytes ([[9]; [10]; [11]; [12]; [13]; [32]; [194; 133]; [194; 160]; [225; 154; 128]] ++
    map (fun n => [226; 128; n]) [128; 129; 130; 131; 132; 133; 134; 135; 136; 137; 138; 168; 169; 175] ++
    [[226; 129; 159]; [227; 128; 128]]).
Inductive blank : string -> Prop :=
  | blank_empty : blank ""
  | blank_more c s : In c white_space -> blank s -> blank (c ++ s).
(* Element k of the document is of type t, has parent p and content l (not counting references to span annotations). *)
Definition element_is (d : document) (k : nat) (t : ElementType) (p : option nat) (l : list datatype) : Prop :=
  exists e, get_elementdata d k = Some e /\ e_type e = t /\ e_parent e = p /\ content e = l.
(* [made O d good p nodes l n]: the content l below element p consists of exactly the n elements and the texts and
   comments of the given nodes. Blank text and blank comments are left out, foreign tags are replaced by what is inside.
   Features written as attributes come first inside the element; their text is their class.
   [good p t own k] says what is required of the attributes of element k, made under p by a tag with attributes own. *)
Section Made.
Context (O : oracle) (d : document) (good : nat -> ElementType -> list Attribute -> nat -> Prop).
Inductive made_features (p : nat) : list (string * string) -> list datatype -> nat -> Prop :=
  | made_no_features : made_features p [] [] 0
  | made_feature subset class k feats l n : element_is d k ET_Feature (Some p) [DText class] ->
      good p ET_Feature [A_Subset subset; A_Class class] k -> made_features p feats l n ->
      made_features p ((subset, class) :: feats) (DElement k :: l) (S n).
Inductive made : nat -> list xnode -> list datatype -> nat -> Prop :=
  | made_nothing p : made p [] [] 0
  | made_element p name attrs inside rest t own feats k fl il l fn inn n :
      et_from_str name = Some t -> reads_attributes O t attrs own feats ->
      element_is d k t (Some p) (fl ++ il) -> good p t own k ->
      made_features k feats fl fn -> made k inside il inn -> made p rest l n ->
      made p (XElement name attrs inside :: rest) (DElement k :: l) (S (fn + inn + n))
  | made_foreign p name attrs inside rest il l inn n : made p inside il inn -> made p rest l n ->
      made p (XForeign name attrs inside :: rest) (il ++ l) (inn + n)
  | made_text p s rest l n : ~ blank s -> made p rest l n -> made p (XText s :: rest) (DText s :: l) n
  | made_cdata p s rest l n : ~ blank s -> made p rest l n -> made p (XCData s :: rest) (DText s :: l) n
  | made_comment p s rest l n : ~ blank s -> made p rest l n -> made p (XComment s :: rest) (DComment s :: l) n
  | made_blank_text p s rest l n : blank s -> made p rest l n -> made p (XText s :: rest) l n
  | made_blank_cdata p s rest l n : blank s -> made p rest l n -> made p (XCData s :: rest) l n
  | made_blank_comment p s rest l n : blank s -> made p rest l n -> made p (XComment s :: rest) l n
  | made_other p rest l n : made p rest l n -> made p (XOther :: rest) l n.
End Made.
