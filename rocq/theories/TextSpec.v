(* Specification of text extraction, independent of the loops of text.rs *)
From Coq Require Import String List Bool Arith NArith Relations.
From Verif Require Import Base Types SpecTable Attrib Element Store Metadata Document Select DocOps Text Spec.
Import ListNotations.
Open Scope string_scope.
Open Scope list_scope.

(* text_by_key comes back with a text / with an error. Its set, text class and strictness play no role (C39). *)
Definition has_text (d : document) (retain : bool) (e : elementdata) (t : string) : Prop :=
  exists fuel, text_by_key fuel d 0 0 false retain e None = Ok t.
Definition no_text (d : document) (retain : bool) (e : elementdata) : Prop :=
  exists fuel x, text_by_key fuel d 0 0 false retain e None = Err x.

(* what a word reference points at *)
Definition target (d : document) (e : elementdata) : option elementdata :=
  match e_idref e with
  | Some id => match get_element_key_by_id d id with Some k => get_elementdata d k | None => None end
  | None => None
  end.
(* the children that make up the text of a structural element: structure, spans, corrections, and what word
   references point at *)
Definition structural (t : ElementType) : Prop := In t (group_elementtypes EG_Structure) \/ In t (group_elementtypes EG_Span) \/ t = ET_Correction.
Inductive source (d : document) : datatype -> option elementdata -> Prop :=
  | src_child k c : get_elementdata d k = Some c -> structural (e_type c) -> source d (DElement k) (Some c)
  | src_ref k c : get_elementdata d k = Some c -> e_type c = ET_WordReference -> source d (DElement k) (target d c)
  | src_other k c : get_elementdata d k = Some c -> ~ structural (e_type c) -> e_type c <> ET_WordReference -> source d (DElement k) None
  | src_missing k : get_elementdata d k = None -> source d (DElement k) None
  | src_data x : (forall k, x <> DElement k) -> source d x None.
Inductive sources (d : document) : list datatype -> list elementdata -> Prop :=
  | srcs_nil : sources d [] []
  | srcs_one x c l r : source d x (Some c) -> sources d l r -> sources d (x :: l) (c :: r)
  | srcs_none x l r : source d x None -> sources d l r -> sources d (x :: l) r.

(* the delimiter that follows an element: that of its type, unless space="no" suppresses it; elements whose type has
   none inherit it from their last child *)
Definition last_child (d : document) (l : list datatype) (c : elementdata) : Prop :=
  exists l1 k l2, l = l1 ++ DElement k :: l2 /\ get_elementdata d k = Some c /\ forall j, In (DElement j) l2 -> get_elementdata d j = None.
Definition no_space (e : elementdata) : Prop :=
  In AB_SPACE (p_optional_attribs (props (e_type e))) /\ e_attrib e AB_SPACE = Some (A_Space false).
Inductive delimiter (d : document) (retain : bool) : elementdata -> string -> Prop :=
  | del_own e s : p_textdelimiter (props (e_type e)) = Some s -> (retain = true \/ ~ no_space e) -> delimiter d retain e s
  | del_no_space e s : p_textdelimiter (props (e_type e)) = Some s -> retain = false -> no_space e -> delimiter d retain e ""
  | del_inherited e c s : p_textdelimiter (props (e_type e)) = None -> last_child d (e_data e) c -> delimiter d retain c s -> delimiter d retain e s
  | del_none e : p_textdelimiter (props (e_type e)) = None -> (forall k, In (DElement k) (e_data e) -> get_elementdata d k = None) -> delimiter d retain e "".

(* the parts that have text, each with its text and the delimiter that follows it *)
Inductive text_parts (d : document) (retain : bool) : list elementdata -> list (elementdata * string * string) -> Prop :=
  | tp_nil : text_parts d retain [] []
  | tp_take c l t s r : has_text d retain c t -> delimiter d retain c s -> text_parts d retain l r -> text_parts d retain (c :: l) ((c, t, s) :: r)
  | tp_skip c l r : no_text d retain c -> text_parts d retain l r -> text_parts d retain (c :: l) r.
(* delimiters go between two parts; the delimiter of the last part is not printed. No delimiter goes before a text
   container (only a word reference can lead to one). *)
Fixpoint join (l : list (elementdata * string * string)) : string :=
  match l with
  | [] => ""
  | (_, t, s) :: r =>
      t ++ (match r with
            | (c, _, _) :: _ => if p_textcontainer (props (e_type c)) then "" else s
            | [] => ""
            end) ++ join r
  end.
(* the last text content element among the children *)
Definition last_text_content (d : document) (l : list datatype) (c : elementdata) : Prop :=
  exists l1 k l2, l = l1 ++ DElement k :: l2 /\ get_elementdata d k = Some c /\ e_type c = ET_TextContent /\
    forall j x, In (DElement j) l2 -> get_elementdata d j = Some x -> e_type x <> ET_TextContent.

(* text content and markup: text, and printable children, in order; a delimiter only after text *)
Inductive flow (d : document) (retain : bool) : string -> list datatype -> string -> Prop :=
  | flow_nil acc : flow d retain acc [] acc
  | flow_text acc s r t : flow d retain (acc ++ s) r t -> flow d retain acc (DText s :: r) t
  | flow_child acc k c s r t : get_elementdata d k = Some c -> p_printable (props (e_type c)) = true -> has_text d retain c s ->
      flow d retain (acc ++ (if String.eqb acc "" then "" else match p_textdelimiter (props (e_type c)) with Some x => x | None => "" end) ++ s) r t ->
      flow d retain acc (DElement k :: r) t
  | flow_silent acc k c r t : get_elementdata d k = Some c -> p_printable (props (e_type c)) = false -> flow d retain acc r t -> flow d retain acc (DElement k :: r) t
  | flow_missing acc k r t : get_elementdata d k = None -> flow d retain acc r t -> flow d retain acc (DElement k :: r) t
  | flow_other acc x r t : (forall k, x <> DElement k) -> (forall s, x <> DText s) -> flow d retain acc r t -> flow d retain acc (x :: r) t.

(* the text fragments below an element, in document order, not entering unprintable elements *)
Inductive fragments (d : document) : list datatype -> string -> Prop :=
  | frag_nil : fragments d [] ""
  | frag_text s r t : fragments d r t -> fragments d (DText s :: r) (s ++ t)
  | frag_child k c r s t : get_elementdata d k = Some c -> p_printable (props (e_type c)) = true -> fragments d (e_data c) s -> fragments d r t ->
      fragments d (DElement k :: r) (s ++ t)
  | frag_silent k c r t : get_elementdata d k = Some c -> p_printable (props (e_type c)) = false -> fragments d r t -> fragments d (DElement k :: r) t
  | frag_missing k r t : get_elementdata d k = None -> fragments d r t -> fragments d (DElement k :: r) t
  | frag_other x r t : (forall k, x <> DElement k) -> (forall s, x <> DText s) -> fragments d r t -> fragments d (x :: r) t.

(* only text and text containers (text content, markup) below, apart from what is not printed *)
Inductive inline (d : document) : list datatype -> Prop :=
  | inl_nil : inline d []
  | inl_child k c r : get_elementdata d k = Some c -> p_printable (props (e_type c)) = true -> p_textcontainer (props (e_type c)) = true ->
      inline d (e_data c) -> inline d r -> inline d (DElement k :: r)
  | inl_silent k c r : get_elementdata d k = Some c -> p_printable (props (e_type c)) = false -> inline d r -> inline d (DElement k :: r)
  | inl_missing k r : get_elementdata d k = None -> inline d r -> inline d (DElement k :: r)
  | inl_other x r : (forall k, x <> DElement k) -> inline d r -> inline d (x :: r).

(* x takes part in the text of p: a child, or the target of a word reference among the children *)
Inductive feeds (d : document) : nat -> nat -> Prop :=
  | feeds_child c p pe : get_elementdata d p = Some pe -> In (DElement c) (e_data pe) -> feeds d c p
  | feeds_ref c w p pe we id : get_elementdata d p = Some pe -> In (DElement w) (e_data pe) -> get_elementdata d w = Some we ->
      e_type we = ET_WordReference -> e_idref we = Some id -> get_element_key_by_id d id = Some c -> feeds d c p.
Definition text_acyclic (d : document) : Prop := forall k, ~ clos_trans nat (feeds d) k k.

(* b can be obtained from a by inserting delimiters of the specification *)
Inductive adds_delimiters : string -> string -> Prop :=
  | ad_nil : adds_delimiters "" ""
  | ad_same s a b : adds_delimiters a b -> adds_delimiters (s ++ a) (s ++ b)
  | ad_insert t s a b : p_textdelimiter (props t) = Some s -> adds_delimiters a b -> adds_delimiters a (s ++ b).

(* elements that are not to be printed *)
Definition silent (t : ElementType) : bool := (negb (p_printable (props t)) || p_hidden (props t)) && negb (et_eqb t ET_WordReference).
Definition silent_item (d : document) (x : datatype) : bool :=
  match x with
  | DElement k => match get_elementdata d k with Some c => silent (e_type c) | None => false end
  | _ => false
  end.
Definition without_silent (d : document) (e : elementdata) : elementdata := e_with_data e (filter (fun x => negb (silent_item d x)) (e_data e)).

(* ---------------------------------------------------------------- the text of an element as one inductive definition over the
   element tree, without any function of the model of text.rs *)
Definition is_container (e : elementdata) : Prop := p_textcontainer (props (e_type e)) = true.
(* printed, but not itself text content or markup *)
Definition is_printed (e : elementdata) : Prop :=
  p_textcontainer (props (e_type e)) = false /\ p_printable (props (e_type e)) = true /\ p_hidden (props (e_type e)) = false.
Definition is_silent (e : elementdata) : Prop :=
  p_textcontainer (props (e_type e)) = false /\ (p_printable (props (e_type e)) = false \/ p_hidden (props (e_type e)) = true).

(* reads e t: e has the text t. mute e: e has no text. *)
Inductive reads (d : document) (rt : bool) : elementdata -> string -> Prop :=
  | reads_content e t : is_container e -> runs d rt "" (e_data e) t -> reads d rt e t
  | reads_parts e cs ps : is_printed e -> sources d (e_data e) cs -> pieces d rt cs ps -> join ps <> "" -> reads d rt e (join ps)
  | reads_own e cs ps c t : is_printed e -> sources d (e_data e) cs -> pieces d rt cs ps -> join ps = "" ->
      last_text_content d (e_data e) c -> reads d rt c t -> t <> "" -> reads d rt e t
with mute (d : document) (rt : bool) : elementdata -> Prop :=
  | mute_silent e : is_silent e -> mute d rt e
  | mute_nothing e cs ps : is_printed e -> sources d (e_data e) cs -> pieces d rt cs ps -> join ps = "" ->
      (forall c, ~ last_text_content d (e_data e) c) -> mute d rt e
  | mute_empty e cs ps c : is_printed e -> sources d (e_data e) cs -> pieces d rt cs ps -> join ps = "" ->
      last_text_content d (e_data e) c -> reads d rt c "" -> mute d rt e
  | mute_own e cs ps c : is_printed e -> sources d (e_data e) cs -> pieces d rt cs ps -> join ps = "" ->
      last_text_content d (e_data e) c -> mute d rt c -> mute d rt e
  | mute_stuck e : is_container e -> stuck d rt (e_data e) -> mute d rt e
(* those among the sources that have text, each with its text and the delimiter that follows it *)
with pieces (d : document) (rt : bool) : list elementdata -> list (elementdata * string * string) -> Prop :=
  | pieces_nil : pieces d rt [] []
  | pieces_take c l t s r : reads d rt c t -> delimiter d rt c s -> pieces d rt l r -> pieces d rt (c :: l) ((c, t, s) :: r)
  | pieces_skip c l r : mute d rt c -> pieces d rt l r -> pieces d rt (c :: l) r
(* text content and markup: runs acc l t: after acc, the items l complete the text to t *)
with runs (d : document) (rt : bool) : string -> list datatype -> string -> Prop :=
  | runs_nil acc : runs d rt acc [] acc
  | runs_text acc s r t : runs d rt (acc ++ s) r t -> runs d rt acc (DText s :: r) t
  | runs_child acc k c s r t : get_elementdata d k = Some c -> p_printable (props (e_type c)) = true -> reads d rt c s ->
      runs d rt (acc ++ (if String.eqb acc "" then "" else match p_textdelimiter (props (e_type c)) with Some x => x | None => "" end) ++ s) r t ->
      runs d rt acc (DElement k :: r) t
  | runs_silent acc k c r t : get_elementdata d k = Some c -> p_printable (props (e_type c)) = false -> runs d rt acc r t -> runs d rt acc (DElement k :: r) t
  | runs_missing acc k r t : get_elementdata d k = None -> runs d rt acc r t -> runs d rt acc (DElement k :: r) t
  | runs_other acc x r t : (forall k, x <> DElement k) -> (forall s, x <> DText s) -> runs d rt acc r t -> runs d rt acc (x :: r) t
(* a printable child without text makes text content fail, after children that have text *)
with stuck (d : document) (rt : bool) : list datatype -> Prop :=
  | stuck_here k c r : get_elementdata d k = Some c -> p_printable (props (e_type c)) = true -> mute d rt c -> stuck d rt (DElement k :: r)
  | stuck_child k c s r : get_elementdata d k = Some c -> p_printable (props (e_type c)) = true -> reads d rt c s -> stuck d rt r -> stuck d rt (DElement k :: r)
  | stuck_silent k c r : get_elementdata d k = Some c -> p_printable (props (e_type c)) = false -> stuck d rt r -> stuck d rt (DElement k :: r)
  | stuck_missing k r : get_elementdata d k = None -> stuck d rt r -> stuck d rt (DElement k :: r)
  | stuck_other x r : (forall k, x <> DElement k) -> stuck d rt r -> stuck d rt (x :: r).
