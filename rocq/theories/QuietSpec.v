(* What C71 speaks of: additions that the text of a document does not show. *)
From Coq Require Import String List Bool Arith.
From Verif Require Import Base Types SpecTable Attrib Element Store Document Spec TextSpec.
Import ListNotations.

(* An element of type t, added to one of type pt, is not read for the text: nothing in pt is, or t is hidden or not
   printable. Text content skips the unprintable only, so there a hidden word is not enough. *)
Definition unread (pt t : ElementType) : Prop :=
  silent pt = true \/ silent t = true /\ (p_textcontainer (props pt) = true -> p_printable (props t) = false).
(* The delimiter after an element does not depend on the last thing in element p: p has a delimiter of its own, or it
   is never followed by one (it is silent) and the same holds for its parent. *)
Inductive shielded (d : document) : nat -> Prop :=
  | shielded_own p e : get_elementdata d p = Some e -> p_textdelimiter (props (e_type e)) <> None -> shielded d p
  | shielded_silent p e : get_elementdata d p = Some e -> silent (e_type e) = true -> (forall q, e_parent e = Some q -> shielded d q) -> shielded d p.
(* no word reference in the document waits for an ID in e *)
Definition nothing_awaits (d : document) (e : elementdata) : Prop :=
  forall w we id, get_elementdata d w = Some we -> e_type we = ET_WordReference -> e_idref we = Some id -> get_element_key_by_id d id = None -> ~ In id (ids_in e).
