(* Model of the fmt::Display implementations: formatting with "{}". (Display for Attribute is a_display in Attrib.v: its
   fmt panics itself, in the expect of attrib.rs:118.) *)
From Coq Require Import String List Bool Arith NArith.
From Verif Require Import Base Types SpecTable Attrib Element Store Metadata Document Select DocOps Text.
Import ListNotations.
Open Scope string_scope.

(* What fmt() does: the characters it writes, or Err(fmt::Error) (here None). *)
Definition fmt_result : Type := res (option string).

(* format!("{}", x), x.to_string(), println!("{}", x): the standard library panics if fmt returns Err(fmt::Error) *)
Definition formatted (r : fmt_result) : res string :=
  let? o := r in expect o.

(* types.rs:625-629  Display for ElementType *)
Definition et_fmt (t : ElementType) : fmt_result := Ok (Some (et_as_str t)).
(* types.rs:303-307  Display for AnnotationType *)
Definition at_fmt (t : AnnotationType) : fmt_result := Ok (Some (at_as_str t)).
(* metadata.rs:353-357  Display for ProcessorType *)
Definition pt_fmt (t : ProcessorType) : fmt_result := Ok (Some (pt_as_str t)).
(* attrib.rs:65-69  Display for AttribType: write!(f, "{}", self), a call of itself; the fuel is the depth of the call stack *)
Fixpoint ab_fmt (fuel : nat) (t : AttribType) : fmt_result :=
  match fuel with
  | 0 => OutOfFuel
  | S f => ab_fmt f t
  end.
(* attrib.rs:113-121  Display for Attribute *)
Definition a_fmt (O : oracle) (a : Attribute) : fmt_result := let? s := a_display O a in Ok (Some s).
(* element.rs:479-487  Display for Element: the text with the default parameters, any error becomes fmt::Error *)
Definition element_fmt (fuel : nat) (d : document) (e : elementdata) : fmt_result :=
  match element_text fuel d e tp_default with
  | Ok s => Ok (Some s)
  | Err _ => Ok None
  | Panic => Panic
  | OutOfFuel => OutOfFuel
  end.
