(* The interface to quick-xml 0.22: the events the reader delivers to the parser, the events the
   serialiser hands to the writer, and the effect of writing and reading back ([reread]).
   quick-xml itself is not in /repo; this file is an assumption about it, stated as definitions. *)
From Coq Require Import String Ascii List Bool Arith NArith.
From Verif Require Import Base.
Import ListNotations.
Open Scope string_scope.

(* resolved namespace of a tag: NSFOLIA (common.rs:1), another one, or none *)
Inductive xns : Set := NsFolia | NsOther | NsNone.

(* one attribute: qualified name and unescaped value; None = the value cannot be unescaped or decoded *)
Record xattr : Set := mkXA { xa_key : string; xa_val : option string }.

(* the attribute iterator yields Err (here None) for malformed and duplicate attributes *)
Definition xattrs : Set := list (option xattr).

(* Reader::read_namespaced_event. The end of the list is Event::Eof. Names are local names and UTF-8. *)
Inductive event : Set :=
  | EvStart (ns : xns) (name : string) (attrs : xattrs)
  | EvEmpty (ns : xns) (name : string) (attrs : xattrs)
  | EvEnd (ns : xns) (name : string)
  | EvText (s : option string)     (* namespace None; unescaped, None = error *)
  | EvCData (s : option string)
  | EvComment (s : option string)  (* not unescaped *)
  | EvOther                        (* declaration, processing instruction, doctype *)
  | EvError.                       (* the reader returns an error *)

(* events written by the serialiser; attribute values and texts are plain (not yet escaped) *)
Inductive wevent : Set :=
  | WStart (name : string) (attrs : list (string * string))
  | WEmpty (name : string) (attrs : list (string * string))
  | WEnd (name : string)
  | WText (s : string)
  | WComment (s : string).

(* quick_xml::escape::escape *)
Definition escape_char (a : ascii) : string :=
  if Ascii.eqb a "<" then "&lt;"
  else if Ascii.eqb a ">" then "&gt;"
  else if Ascii.eqb a "'" then "&#39;"
  else if Ascii.eqb a "&" then "&amp;"
  else if Nat.eqb (nat_of_ascii a) 34 then "&quot;"
  else String a EmptyString.
Fixpoint escape (s : string) : string :=
  match s with
  | EmptyString => EmptyString
  | String a r => escape_char a ++ escape r
  end.

Fixpoint spaces (n : nat) : string :=
  match n with 0 => EmptyString | S k => String " " (spaces k) end.

(* Writer: with indentation, a tag or comment is preceded by a line break and indent*depth blanks unless
   the previous event was text (or it is the first). Result: events with the text between them explicit. *)
Fixpoint w_indent (indent depth : nat) (brk : bool) (l : list wevent) : list wevent :=
  let pre d := if brk && negb (Nat.eqb indent 0) then [WText (nl ++ spaces (indent * d))] else [] in
  match l with
  | [] => []
  | WStart n a :: r => (pre depth ++ WStart n a :: w_indent indent (S depth) true r)%list
  | WEmpty n a :: r => (pre depth ++ WEmpty n a :: w_indent indent depth true r)%list
  | WEnd n :: r => (pre (pred depth) ++ WEnd n :: w_indent indent (pred depth) true r)%list
  | WComment s :: r => (pre depth ++ WComment s :: w_indent indent depth true r)%list
  | WText s :: r => WText s :: w_indent indent depth false r
  end.

(* Reader: a second attribute of the same name is an error, after which the iterator ends *)
Fixpoint read_attrs (seen : list string) (l : list (string * string)) : xattrs :=
  match l with
  | [] => []
  | (k, v) :: r => if existsb (String.eqb k) seen then [None] else Some (mkXA k (Some v)) :: read_attrs (k :: seen) r
  end.

(* Reader: text up to the next tag is one event; no event for empty text; comments are not unescaped.
   [acc] is the text read so far. All names are in the FoLiA namespace (default namespace of the root). *)
Definition flush (acc : string) : list event := if str_is_empty acc then [] else [EvText (Some acc)].
Fixpoint w_read (acc : string) (l : list wevent) : list event :=
  match l with
  | [] => flush acc
  | WText s :: r => w_read (acc ++ s) r
  | WStart n a :: r => (flush acc ++ EvStart NsFolia n (read_attrs [] a) :: w_read "" r)%list
  | WEmpty n a :: r => (flush acc ++ EvEmpty NsFolia n (read_attrs [] a) :: w_read "" r)%list
  | WEnd n :: r => (flush acc ++ EvEnd NsFolia n :: w_read "" r)%list
  | WComment s :: r => (flush acc ++ EvComment (Some (escape s)) :: w_read "" r)%list
  end.

(* write with the given indentation, then read back *)
Definition reread (indent : nat) (l : list wevent) : list event := w_read "" (w_indent indent 0 false l).
