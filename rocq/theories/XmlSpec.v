(* Specification: well-formed XML as strings, after the grammar of XML 1.0 (numbers of its productions in brackets).
   Every string derivable here is well-formed. Forms the serialiser does not use (single quotes, more white space,
   CDATA sections, processing instructions, a prolog, other references, "]]" and ">" in text) are left out.
   A byte above 127 is part of a character of more than one byte, all of which are allowed. *)
From Coq Require Import String Ascii List Bool Arith NArith.
From Verif Require Import Xml.
Import ListNotations.
Open Scope string_scope.

Fixpoint every (P : ascii -> Prop) (s : string) : Prop := match s with "" => True | String a r => P a /\ every P r end.
Definition quote : string := """".
(* [2] Char: no control characters but tab, line feed and carriage return *)
Definition xml_char (a : ascii) : Prop := (32 <= N_of_ascii a)%N \/ a = "009"%char \/ a = "010"%char \/ a = "013"%char.
(* [4] NameStartChar, [4a] NameChar, [5] Name *)
Definition name_start (a : ascii) : Prop :=
  let n := N_of_ascii a in (97 <= n <= 122 \/ 65 <= n <= 90 \/ 128 <= n)%N \/ a = "_"%char \/ a = ":"%char.
Definition name_part (a : ascii) : Prop := name_start a \/ (48 <= N_of_ascii a <= 57)%N \/ a = "-"%char \/ a = "."%char.
Definition xml_name (s : string) : Prop := exists a r, s = String a r /\ name_start a /\ every name_part r.
(* [66] CharRef, [67] Reference, [68] EntityRef with the predefined entities *)
Definition xml_reference (s : string) : Prop := In s ["&lt;"; "&gt;"; "&amp;"; "&apos;"; "&quot;"; "&#39;"].
(* [10] AttValue, between double quotes *)
Inductive att_value : string -> Prop :=
  | value_end : att_value ""
  | value_char a s : xml_char a -> a <> "<"%char -> a <> "&"%char -> String a "" <> quote -> att_value s -> att_value (String a s)
  | value_ref r s : xml_reference r -> att_value s -> att_value (r ++ s).
(* [41] Attribute, as in [40] STag: no name occurs twice *)
Inductive attributes : list string -> string -> Prop :=
  | no_attributes : attributes [] ""
  | attribute n v names s : xml_name n -> ~ In n names -> att_value v -> attributes names s ->
      attributes (n :: names) (" " ++ n ++ "=" ++ quote ++ v ++ quote ++ s).
(* [15] Comment: what is between <!-- and --> has no double hyphen and does not end in a hyphen *)
Inductive comment_text : string -> Prop :=
  | comment_end : comment_text ""
  | comment_char a s : xml_char a -> a <> "-"%char -> comment_text s -> comment_text (String a s)
  | comment_hyphen a s : xml_char a -> a <> "-"%char -> comment_text s -> comment_text (String "-" (String a s)).
(* [43] content, with [14] CharData, [39] element, [40] STag, [42] ETag, [44] EmptyElemTag *)
Inductive content : string -> Prop :=
  | content_end : content ""
  | content_char a s : xml_char a -> a <> "<"%char -> a <> ">"%char -> a <> "&"%char -> content s -> content (String a s)
  | content_ref r s : xml_reference r -> content s -> content (r ++ s)
  | content_comment c s : comment_text c -> content s -> content ("<!--" ++ c ++ "-->" ++ s)
  | content_empty n names atts s : xml_name n -> attributes names atts -> content s -> content ("<" ++ n ++ atts ++ "/>" ++ s)
  | content_element n names atts inside s : xml_name n -> attributes names atts -> content inside -> content s ->
      content ("<" ++ n ++ atts ++ ">" ++ inside ++ "</" ++ n ++ ">" ++ s).
(* [1] document: one element *)
Definition well_formed_xml (s : string) : Prop := exists n names atts inside, xml_name n /\ attributes names atts /\ content inside /\
  s = "<" ++ n ++ atts ++ ">" ++ inside ++ "</" ++ n ++ ">".
Definition legal_text (s : string) : Prop := every xml_char s.

(* What is handed to the writer can be written in XML. The values of a tag have only characters XML has and no name twice, texts likewise, and comments have no double hyphen. *)
Definition legal_event (e : wevent) : Prop :=
  match e with
  | WStart _ a | WEmpty _ a => NoDup (map fst a) /\ Forall (fun p => legal_text (snd p)) a
  | WText s => legal_text s
  | WComment s => comment_text s
  | WEnd _ => True
  end.
