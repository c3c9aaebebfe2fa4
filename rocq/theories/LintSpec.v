(* What a user of the linter relies on, in terms of loading and saving (C78). *)
From Coq Require Import String List Bool Arith NArith.
From Verif Require Import Base Types SpecTable Attrib Element Store Metadata Document Select DocOps Xml Parser Serialiser XmlText Lint.
Import ListNotations.
Open Scope string_scope.
Open Scope list_scope.

(* What is said about one file: the document saved again if it could be loaded and saved, else the error. *)
Inductive report (fuel : nat) (O : oracle) : option string -> said -> Prop :=
  | R_unreadable x : report fuel O None (Complained x)
  | R_not_loaded s x : doc_from_bytes fuel O dp_default s = Err x -> report fuel O (Some s) (Complained x)
  | R_not_saved s d x : doc_from_bytes fuel O dp_default s = Ok d -> doc_bytes fuel O d 0 4 = Err x -> report fuel O (Some s) (Complained x)
  | R_saved s d t : doc_from_bytes fuel O dp_default s = Ok d -> doc_bytes fuel O d 0 4 = Ok t -> report fuel O (Some s) (Printed t).
(* Loading the file or saving it again panics. *)
Definition fatal (fuel : nat) (O : oracle) (f : option string) : Prop :=
  exists s, f = Some s /\ (doc_from_bytes fuel O dp_default s = Panic \/ exists d, doc_from_bytes fuel O dp_default s = Ok d /\ doc_bytes fuel O d 0 4 = Panic).
(* how many key/value pairs the metadata of a file has *)
Definition metas (w : list wevent) : nat := length (filter (fun x => match x with WStart n _ => String.eqb n "meta" | _ => false end) w).
