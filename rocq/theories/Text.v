(* Model of /repo/src/text.rs *)
From Coq Require Import String List Bool Arith NArith.
From Verif Require Import Base Types SpecTable Attrib Element Store Metadata Document Select DocOps.
Import ListNotations.
Open Scope string_scope.

(* text.rs:17-34  TextParameters *)
Record textparams : Type := mkTP {
  tp_set : option string; tp_class : option string; tp_strict : bool; tp_retain : bool }.
Definition tp_default : textparams := mkTP (Some DEFAULT_TEXT_SET) (Some "current") false false.

Definition space_of (e : elementdata) : bool :=
  match e_attrib e AB_SPACE with Some (A_Space b) => b | _ => true end.

(* text.rs:150-191  get_textdelimiter. The loop over the reversed children returns at the first element
   child that exists. *)
Fixpoint last_element (d : document) (l : list datatype) : option elementdata :=
  match l with
  | [] => None
  | x :: r => match last_element d r with
              | Some e => Some e
              | None => match x with
                        | DElement k => get_elementdata d k
                        | _ => None
                        end
              end
  end.
Fixpoint get_textdelimiter (fuel : nat) (d : document) (retain : bool) (e : elementdata) : res string :=
  match fuel with
  | 0 => OutOfFuel
  | S f =>
      let pr := props (e_type e) in
      match p_textdelimiter pr with
      | None => match last_element d (e_data e) with
                | Some c => get_textdelimiter f d retain c
                | None => Ok ""
                end
      | Some delim =>
          if existsb (ab_eqb AB_SPACE) (p_optional_attribs pr) then
            if retain || space_of e then Ok delim else Ok ""
          else Ok delim
      end
  end.

(* text.rs:71-94: the loop over the data of a text container; [rec] is text_by_key on a child, with
   previousdelimiter None *)
Fixpoint container_loop (d : document) (rec : elementdata -> res string) (acc : string) (l : list datatype) : res string :=
  match l with
  | [] => Ok acc
  | DText s :: r => container_loop d rec (acc ++ s) r
  | DElement k :: r =>
      match get_elementdata d k with
      | Some c =>
          let pr := props (e_type c) in
          if p_printable pr then
            let acc1 := if str_is_empty acc then acc
                        else match p_textdelimiter pr with Some s => acc ++ s | None => acc end in
            let? part := rec c in
            container_loop d rec (acc1 ++ part) r
          else container_loop d rec acc r
      | None => container_loop d rec acc r
      end
  | _ :: r => container_loop d rec acc r
  end.

Definition text_child (et : ElementType) : bool :=
  group_contains EG_Structure et || et_eqb et ET_Correction || group_contains EG_Span et.

(* one "if let Ok(textpart) = ..." block (text.rs:109-115, 119-125): Err is swallowed *)
Definition text_part (rec : elementdata -> option string -> res string) (delim : elementdata -> res string)
    (c : elementdata) (st : string * string) : res (string * string) :=
  let '(text, delimiter) := st in
  match rec c (Some delimiter) with
  | Ok part =>
      match delim c with
      | Ok s => Ok (text ++ part, s)
      | Err _ => Ok (text ++ part, delimiter)
      | Panic => Panic
      | OutOfFuel => OutOfFuel
      end
  | Err _ => Ok (text, delimiter)
  | Panic => Panic
  | OutOfFuel => OutOfFuel
  end.

(* text.rs:102-130: loop state = (text, delimiter, last text content element) *)
Fixpoint children_loop (d : document) (rec : elementdata -> option string -> res string)
    (delim : elementdata -> res string) (st : string * string) (tc : option elementdata) (l : list datatype)
  : res (string * option elementdata) :=
  match l with
  | [] => Ok (fst st, tc)
  | DElement k :: r =>
      match get_elementdata d k with
      | Some c =>
          if text_child (e_type c) then
            let? st' := text_part rec delim c st in children_loop d rec delim st' tc r
          else if et_eqb (e_type c) ET_WordReference then
            let? t := r_resolve d c in
            match t with
            | Some t => let? st' := text_part rec delim t st in children_loop d rec delim st' tc r
            | None => children_loop d rec delim st tc r
            end
          else if et_eqb (e_type c) ET_TextContent then children_loop d rec delim st (Some c) r
          else children_loop d rec delim st tc r
      | None => children_loop d rec delim st tc r
      end
  | _ :: r => children_loop d rec delim st tc r
  end.

(* text.rs:62-147  text_by_key. The parameters set, textclass and strict are passed on but never used
   by the code; they are kept as parameters. *)
Fixpoint text_by_key (fuel : nat) (d : document) (set textclass : nat) (strict retain : bool)
    (e : elementdata) (prev : option string) : res string :=
  match fuel with
  | 0 => OutOfFuel
  | S f =>
      let pr := props (e_type e) in
      if p_textcontainer pr then
        container_loop d (fun c => text_by_key f d set textclass strict retain c None) "" (e_data e)
      else if negb (p_printable pr) || p_hidden pr then Err ENoText
      else
        let? x := children_loop d (text_by_key f d set textclass false retain)
                    (get_textdelimiter f d retain) ("", "") None (e_data e) in
        let '(text, tc) := x in
        let? text :=
          match tc with
          | Some c =>
              if str_is_empty text then
                match text_by_key f d set textclass false retain c None with
                | Ok s => Ok s
                | Err _ => Ok text
                | Panic => Panic
                | OutOfFuel => OutOfFuel
                end
              else Ok text
          | None => Ok text
          end in
        if str_is_empty text then Err ENoText
        else Ok (match prev with Some p => p ++ text | None => text end)
  end.

(* text.rs:196-204  Element::text *)
Definition element_text (fuel : nat) (d : document) (e : elementdata) (tp : textparams) : res string :=
  match get_declaration_key_by_id d (index_id AT_TEXT (tp_set tp)) with
  | Some dk =>
      let? c := expect (tp_class tp) in
      let? ck := doc_class_key d dk c in
      text_by_key fuel d dk ck (tp_strict tp) (tp_retain tp) e None
  | None => match tp_set tp with Some _ => Err EEncode | None => Panic end
  end.

(* text.rs:212-218, 221-227  Document::text_by_key / Document::text *)
Definition doc_text_by_key (fuel : nat) (d : document) (key set textclass : nat) (strict retain : bool) : res string :=
  match get_elementdata d key with
  | Some e => text_by_key fuel d set textclass strict retain e None
  | None => Err EKey
  end.
Definition doc_text (fuel : nat) (d : document) (key : nat) (tp : textparams) : res string :=
  match get_elementdata d key with
  | Some e => element_text fuel d e tp
  | None => Err EKey
  end.
