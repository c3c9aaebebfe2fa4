(* The bytes of an XML file: what quick-xml 0.22 (a dependency, not in /repo) writes for the events of
   serialiser.rs:31-309 and which events its reader delivers to parser.rs:39-470 for a given file.
   Document::xml returns these bytes and Document::from_str (document.rs:146-150) takes them; the reader is
   set up there with trim_text(false) and otherwise with its defaults (names of end tags are checked, empty
   tags are not expanded, comments are not checked).
   Simplified: a byte is an [ascii], and decoding from UTF-8 is left out (the bytes come from a Rust string);
   positions and the texts of errors are left out; a DOCTYPE ends at the next ">". *)
From Coq Require Import String Ascii List Bool Arith NArith.
From Verif Require Import Base Types Attrib Document DocOps Xml Parser Serialiser.
Import ListNotations.
Open Scope string_scope.

(* ---------------------------------------------------------------- writing *)
Definition dq : ascii := """"%char.
Definition sq : ascii := "'"%char.

(* BytesStart::push_attribute with Attribute::from((&str, &str)), which escapes the value *)
Fixpoint write_attrs (l : list (string * string)) : string :=
  match l with
  | [] => ""
  | (k, v) :: r => String " " (k ++ String "=" (String dq (escape v ++ String dq (write_attrs r))))
  end.
(* Writer::write_event; the text of BytesText::from_plain_str is escaped, also in a comment *)
Definition write_event (e : wevent) : string :=
  match e with
  | WStart n a => String "<" (n ++ write_attrs a ++ ">")
  | WEmpty n a => String "<" (n ++ write_attrs a ++ "/>")
  | WEnd n => String "<" (String "/" (n ++ ">"))
  | WText s => escape s
  | WComment s => "<!--" ++ escape s ++ "-->"
  end.
Fixpoint write_events (l : list wevent) : string :=
  match l with [] => "" | e :: r => write_event e ++ write_events r end.
(* the file: serialiser.rs:32-36 with Writer::new (indent 0) or Writer::new_with_indent *)
Definition write_text (indent : nat) (l : list wevent) : string := write_events (w_indent indent 0 false l).

(* ---------------------------------------------------------------- references in texts and attribute values *)
Definition digit_of (a : ascii) : option N :=
  let n := N_of_ascii a in
  if N.leb 48 n && N.leb n 57 then Some (n - 48)%N else None.
Definition hexdigit_of (a : ascii) : option N :=
  let n := N_of_ascii a in
  if N.leb 48 n && N.leb n 57 then Some (n - 48)%N
  else if N.leb 97 n && N.leb n 102 then Some (n - 87)%N
  else if N.leb 65 n && N.leb n 70 then Some (n - 55)%N else None.
Fixpoint number (f : ascii -> option N) (base acc : N) (s : string) : option N :=
  match s with
  | "" => Some acc
  | String a r => match f a with Some x => number f base (acc * base + x)%N r | None => None end
  end.
Definition byte (n : N) : string := String (ascii_of_N n) "".
Definition utf8 (c : N) : string :=
  (if N.ltb c 128 then byte c
   else if N.ltb c 2048 then byte (192 + c / 64) ++ byte (128 + c mod 64)
   else if N.ltb c 65536 then byte (224 + c / 4096) ++ byte (128 + c / 64 mod 64) ++ byte (128 + c mod 64)
   else byte (240 + c / 262144) ++ byte (128 + c / 4096 mod 64) ++ byte (128 + c / 64 mod 64) ++ byte (128 + c mod 64))%N.
(* escape.rs: parse_number, char::from_u32 *)
Definition numeric (s : string) : option string :=
  let n := match s with
           | String "x" r => if Nat.ltb 6 (String.length r) then None else number hexdigit_of 16 0 r
           | _ => if Nat.ltb 7 (String.length s) then None else number digit_of 10 0 s
           end in
  match n with
  | Some c => if (N.eqb c 0 || (N.leb 55296 c && N.leb c 57343) || N.ltb 1114111 c)%N then None else Some (utf8 c)
  | None => None
  end.
(* escape.rs: named_entity *)
Definition entity (p : string) : option string :=
  if String.eqb p "lt" then Some "<"
  else if String.eqb p "gt" then Some ">"
  else if String.eqb p "amp" then Some "&"
  else if String.eqb p "apos" then Some "'"
  else if String.eqb p "quot" then Some (String dq "")
  else match p with String "#" r => numeric r | _ => None end.
(* escape.rs: unescape; [ent] is the reference being read, None outside a reference *)
Fixpoint unescape_from (ent : option string) (s : string) : option string :=
  match s with
  | "" => match ent with None => Some "" | Some _ => None end
  | String a r =>
      match ent with
      | None =>
          if Ascii.eqb a "&" then unescape_from (Some "") r
          else option_map (String a) (unescape_from None r)
      | Some p =>
          if Ascii.eqb a ";" then
            match entity p with Some t => option_map (append t) (unescape_from None r) | None => None end
          else if Ascii.eqb a "&" then None
          else unescape_from (Some (p ++ String a "")) r
      end
  end.
Definition unescape (s : string) : option string := unescape_from None s.

(* ---------------------------------------------------------------- splitting the bytes *)
Definition is_space (a : ascii) : bool :=
  Ascii.eqb a " " || Ascii.eqb a "009" || Ascii.eqb a "010" || Ascii.eqb a "013".
(* the longest prefix of bytes that satisfy p, and the rest *)
Fixpoint span (p : ascii -> bool) (s : string) : string * string :=
  match s with
  | "" => ("", "")
  | String a r => if p a then let x := span p r in (String a (fst x), snd x) else ("", s)
  end.
(* utils read_until: the bytes before the delimiter and those after it; None = no delimiter *)
Fixpoint until (c : ascii) (s : string) : string * option string :=
  match s with
  | "" => ("", None)
  | String a r => if Ascii.eqb a c then ("", Some r) else let x := until c r in (String a (fst x), snd x)
  end.
(* reader.rs read_elem_until: up to the first ">" outside quotes; [q] is the open quote *)
Fixpoint elem_until (q : option ascii) (s : string) : string * option string :=
  match s with
  | "" => ("", None)
  | String a r =>
      match q with
      | None =>
          if Ascii.eqb a ">" then ("", Some r)
          else let x := elem_until (if Ascii.eqb a dq || Ascii.eqb a sq then Some a else None) r in (String a (fst x), snd x)
      | Some c => let x := elem_until (if Ascii.eqb a c then None else Some c) r in (String a (fst x), snd x)
      end
  end.
(* the bytes before the first occurrence of a string and those after it *)
Fixpoint until_str (e s : string) : option (string * string) :=
  if String.prefix e s then Some ("", substring (String.length e) (String.length s - String.length e) s)
  else match s with
       | "" => None
       | String a r => option_map (fun x => (String a (fst x), snd x)) (until_str e r)
       end.
Fixpoint trim_end (s : string) : string :=
  match s with
  | "" => ""
  | String a r => let x := trim_end r in if is_space a && str_is_empty x then "" else String a x
  end.
(* the last byte is c *)
Fixpoint ends_in (c : ascii) (s : string) : bool :=
  match s with "" => false | String a "" => Ascii.eqb a c | String _ r => ends_in c r end.
Fixpoint drop_last (s : string) : string :=
  match s with "" => "" | String _ "" => "" | String a r => String a (drop_last r) end.

(* ---------------------------------------------------------------- tags *)
(* attributes.rs: Attributes::next. Names with the raw value; None = malformed or double, which ends the iteration.
   [s] is what follows the name of the tag, or the previous value. *)
Fixpoint raw_attrs (n : nat) (seen : list string) (s : string) : list (option (string * string)) :=
  match n with
  | 0 => []
  | S n =>
      match snd (span is_space (snd (span (fun a => negb (is_space a)) s))) with
      | "" => []
      | String a s =>
          let '(k, r) := span (fun a => negb (is_space a || Ascii.eqb a "=")) s in
          let key := String a k in
          match snd (span is_space r) with
          | String "=" r =>
              if existsb (String.eqb key) seen then [None]
              else match snd (span is_space r) with
                   | String q r =>
                       if Ascii.eqb q dq || Ascii.eqb q sq then
                         match until q r with
                         | (v, Some r) => Some (key, v) :: raw_attrs n (key :: seen) r
                         | (_, None) => [None]
                         end
                       else [None]
                   | "" => [None]
                   end
          | _ => [None]
          end
      end
  end.
Definition attrs_in (s : string) : list (option (string * string)) := raw_attrs (S (String.length s)) [] s.
(* Attribute::unescape_and_decode_value on each *)
Definition read_raw (l : list (option (string * string))) : xattrs :=
  map (option_map (fun p => mkXA (fst p) (unescape (snd p)))) l.

(* reader.rs NamespaceResolver: the prefixes a tag binds ("" = the default namespace) *)
Definition bindings (l : list (option (string * string))) : list (string * string) :=
  flat_map (fun x => match x with
                     | Some (k, v) =>
                         if String.eqb k "xmlns" then [("", v)]
                         else if String.prefix "xmlns:" k then [(substring 6 (String.length k - 6) k, v)] else []
                     | None => []
                     end) l.
Definition namespace (env : list (string * string)) (name : string) : xns :=
  let prefix := match until ":" name with (p, Some _) => p | (_, None) => "" end in
  match find (fun b => String.eqb (fst b) prefix) env with
  | Some (_, uri) => if String.eqb uri NSFOLIA then NsFolia else if str_is_empty uri then NsNone else NsOther
  | None => NsNone
  end.
(* BytesStart::local_name *)
Definition local_name (name : string) : string :=
  match until ":" name with (_, Some l) => l | (l, None) => l end.

(* the open tags, innermost first: name and the prefixes bound by it *)
Definition open_tags : Set := list (string * list (string * string)).
Definition env_of (st : open_tags) : list (string * string) := flat_map snd st.
Definition rest_of (r : option string) : string := match r with Some r => r | None => "" end.

(* ---------------------------------------------------------------- reading *)
(* reader.rs Reader::read_namespaced_event until the end of the file. The fuel is the length of the file; every
   step reads at least one byte. *)
Fixpoint read_loop (n : nat) (st : open_tags) (s : string) : list event :=
  match n with
  | 0 => []
  | S n =>
      match s with
      | "" => []
      | String a r =>
          if negb (Ascii.eqb a "<") then (* read_until_open *)
            let '(t, rest) := span (fun a => negb (Ascii.eqb a "<")) s in EvText (unescape t) :: read_loop n st rest
          else (* read_until_close *)
            match r with
            | "" => []
            | String b r' =>
                if Ascii.eqb b "/" then (* read_end *)
                  let '(x, rest) := until ">" r' in
                  let name := trim_end x in
                  match st with
                  | (open, _) :: st' =>
                      if String.eqb open name then EvEnd (namespace (env_of st) name) (local_name name) :: read_loop n st' (rest_of rest)
                      else [EvError]
                  | [] => [EvError]
                  end
                else if Ascii.eqb b "!" then (* read_exclamation_mark *)
                  if String.prefix "--" r' then
                    match until_str "-->" (substring 2 (String.length r' - 2) r') with
                    | Some (x, rest) => EvComment (Some x) :: read_loop n st rest
                    | None => [EvError]
                    end
                  else if String.prefix "[CDATA[" r' then
                    match until_str "]]>" (substring 7 (String.length r' - 7) r') with
                    | Some (x, rest) => EvCData (Some x) :: read_loop n st rest
                    | None => [EvError]
                    end
                  else if String.prefix "DOCTYPE" r' then EvOther :: read_loop n st (rest_of (snd (until ">" r')))
                  else [EvError]
                else if Ascii.eqb b "?" then (* read_question_mark *)
                  let '(x, rest) := until ">" r' in
                  if ends_in "?" x then EvOther :: read_loop n st (rest_of rest) else [EvError]
                else (* read_start *)
                  let '(x, rest) := elem_until None r in
                  let empty := ends_in "/" x in
                  let '(name, more) := span (fun a => negb (is_space a)) (if empty then drop_last x else x) in
                  let attrs := attrs_in more in
                  let b := bindings attrs in
                  if empty then
                    EvEmpty (namespace (b ++ env_of st) name) (local_name name) (read_raw attrs) :: read_loop n st (rest_of rest)
                  else
                    EvStart (namespace (b ++ env_of st) name) (local_name name) (read_raw attrs) ::
                    read_loop n ((name, b) :: st) (rest_of rest)
            end
      end
  end.
Definition read_text (s : string) : list event := read_loop (S (String.length s)) [] s.

(* serialiser.rs:31-55  Document::xml: the bytes of the document with this body *)
Definition doc_bytes (fuel : nat) (O : oracle) (d : document) (root indent : nat) : res string :=
  let? w := doc_xml fuel O d root in Ok (write_text indent w).
(* document.rs:146-150  Document::from_str (and document.rs:135-142 from_file, apart from the name of the file) *)
Definition doc_from_bytes (fuel : nat) (O : oracle) (p : docprops) (s : string) : res document :=
  parse_document fuel O p (read_text s).
