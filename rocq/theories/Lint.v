(* Model of /repo/src/bin/folialintr.rs, on the contents of the files given. *)
From Coq Require Import String List Bool Arith NArith.
From Verif Require Import Base Types SpecTable Attrib Element Store Metadata Document Select DocOps Xml Parser Serialiser XmlText.
Import ListNotations.
Open Scope list_scope.

(* folialintr.rs:21-24  println! of the XML, eprintln! of an error (the words of the message are left out) *)
Inductive said : Type := Printed (xml : string) | Complained (x : ferr).
(* folialintr.rs:19-28  one file. A file that cannot be opened ([None]) is an error of from_file (document.rs:136).
   The unwrap of str::from_utf8 cannot fail: what is written consists of strings (left out, as strings are bytes here). *)
Definition lint_file (fuel : nat) (O : oracle) (f : option string) : res said :=
  match f with
  | None => Ok (Complained EXml)
  | Some s =>
      match doc_from_bytes fuel O dp_default s with
      | Ok d =>
          match doc_bytes fuel O d 0 4 with
          | Ok x => Ok (Printed x)
          | Err x => Ok (Complained x)
          | Panic => Panic
          | OutOfFuel => OutOfFuel
          end
      | Err x => Ok (Complained x)
      | Panic => Panic
      | OutOfFuel => OutOfFuel
      end
  end.
(* folialintr.rs:18-29  main: what was said when it ended, and how it ended. A panic ends the program; what was said
   before remains said. *)
Fixpoint lint (fuel : nat) (O : oracle) (files : list (option string)) : list said * res unit :=
  match files with
  | [] => ([], Ok tt)
  | f :: r =>
      match lint_file fuel O f with
      | Ok x => let y := lint fuel O r in (x :: fst y, snd y)
      | Err x => ([], Err x)
      | Panic => ([], Panic)
      | OutOfFuel => ([], OutOfFuel)
      end
  end.
