(* Model of /repo/src/parser.rs *)
From Coq Require Import String Ascii List Bool Arith NArith.
From Verif Require Import Base Types SpecTable Attrib Element Store Metadata Document Select DocOps Xml.
Import ListNotations.
Open Scope string_scope.

(* parser.rs:454-469  get_declaration_type: split at the first '-' *)
Fixpoint split_dash (s : string) : option (string * string) :=
  match s with
  | EmptyString => None
  | String a r =>
      if Ascii.eqb a "-" then Some (EmptyString, s)
      else match split_dash r with
           | Some (x, y) => Some (String a x, y)
           | None => None
           end
  end.
Definition get_declaration_type (tag : string) : res AnnotationType :=
  match split_dash tag with
  | Some (x, suffix) =>
      if String.eqb suffix "-annotation" then ok_or (at_from_str x) EParse else Err EParse
  | None => Err EParse
  end.

(* parser.rs:483-513: one attribute of <processor> *)
Definition proc_attr (p : processor) (k v : string) : res processor :=
  let 'mkProc id name ty ver fv dv cmd host user b e procs src fmt rl par md key pend := p in
  if k =? "xml:id" then Ok (mkProc v name ty ver fv dv cmd host user b e procs src fmt rl par md key pend)
  else if k =? "name" then Ok (mkProc id v ty ver fv dv cmd host user b e procs src fmt rl par md key pend)
  else if k =? "version" then Ok (mkProc id name ty v fv dv cmd host user b e procs src fmt rl par md key pend)
  else if k =? "folia_version" then Ok (mkProc id name ty ver v dv cmd host user b e procs src fmt rl par md key pend)
  else if k =? "document_version" then Ok (mkProc id name ty ver fv v cmd host user b e procs src fmt rl par md key pend)
  else if k =? "command" then Ok (mkProc id name ty ver fv dv v host user b e procs src fmt rl par md key pend)
  else if k =? "host" then Ok (mkProc id name ty ver fv dv cmd v user b e procs src fmt rl par md key pend)
  else if k =? "user" then Ok (mkProc id name ty ver fv dv cmd host v b e procs src fmt rl par md key pend)
  else if k =? "begindatetime" then
    match dt_parse_typo v with
    | Some dt => Ok (mkProc id name ty ver fv dv cmd host user (Some dt) e procs src fmt rl par md key pend)
    | None => Err EParse
    end
  else if k =? "enddatetime" then
    match dt_parse_typo v with
    | Some dt => Ok (mkProc id name ty ver fv dv cmd host user b (Some dt) procs src fmt rl par md key pend)
    | None => Err EParse
    end
  else if k =? "src" then Ok (mkProc id name ty ver fv dv cmd host user b e procs v fmt rl par md key pend)
  else if k =? "format" then Ok (mkProc id name ty ver fv dv cmd host user b e procs src v rl par md key pend)
  else if k =? "resourcelink" then Ok (mkProc id name ty ver fv dv cmd host user b e procs src fmt v par md key pend)
  else if k =? "type" then
    let ok t := Ok (mkProc id name t ver fv dv cmd host user b e procs src fmt rl par md key pend) in
    if v =? "manual" then ok PT_Manual
    else if v =? "auto" then ok PT_Auto
    else if v =? "generator" then ok PT_Generator
    else if v =? "datasource" then ok PT_DataSource
    else Err EParse
  else Err EParse.

(* Processor::default(), derived: empty strings *)
Definition pr_default : processor := pr_new "" "".

(* parser.rs:475-520  Processor::parse: malformed attributes are skipped, undecodable values panic *)
Fixpoint parse_proc_attrs (p : processor) (l : xattrs) : res processor :=
  match l with
  | [] => Ok p
  | None :: r => parse_proc_attrs p r
  | Some a :: r =>
      let? v := expect (xa_val a) in
      let? p' := proc_attr p (xa_key a) v in
      parse_proc_attrs p' r
  end.
Definition parse_processor (l : xattrs) : res processor := parse_proc_attrs pr_default l.

(* parser.rs:575-606  Declaration::parse: malformed attributes panic, undecodable values are skipped *)
Fixpoint parse_decl_attrs (set alias format : option string) (l : xattrs)
  : res (option string * option string * option string) :=
  match l with
  | [] => Ok (set, alias, format)
  | None :: _ => Panic
  | Some a :: r =>
      match xa_val a with
      | None => parse_decl_attrs set alias format r
      | Some v =>
          if xa_key a =? "set" then parse_decl_attrs (Some v) alias format r
          else if xa_key a =? "alias" then parse_decl_attrs set (Some v) format r
          else if xa_key a =? "format" then parse_decl_attrs set alias (Some v) r
          else parse_decl_attrs set alias format r
      end
  end.
Definition parse_declaration (tag : string) (l : xattrs) : res declaration :=
  let? t := get_declaration_type tag in
  let? x := parse_decl_attrs None None None l in
  let '(set, alias, format) := x in
  Ok (d_new t set alias format).

(* parser.rs:536-553: is the attribute a shortcut for a feature the element type accepts? *)
Fixpoint feature_subset (key : string) (l : list AcceptedData) : option string :=
  match l with
  | [] => None
  | AcceptElementType t :: r =>
      if group_contains EG_Feature t then
        match p_subset (props t) with
        | Some s => if String.eqb key s then Some s else feature_subset key r
        | None => feature_subset key r
        end
      else feature_subset key r
  | AcceptElementGroup _ :: r => feature_subset key r
  end.
Definition feature_child (subset value : string) : elementdata :=
  mkElem ET_Feature [A_Subset subset; A_Class value] [DText value] None None.

(* parser.rs:524-561  parse_attributes *)
Fixpoint parse_attributes (O : oracle) (et : ElementType) (l : xattrs) : res (list Attribute * list elementdata) :=
  match l with
  | [] => Ok ([], [])
  | None :: _ => Panic
  | Some a :: r =>
      match parse_attrib O (xa_key a) (xa_val a) with
      | Ok at_ => let? x := parse_attributes O et r in Ok (at_ :: fst x, snd x)
      | Err e =>
          match xa_val a with
          | Some v =>
              match feature_subset (xa_key a) (p_accepted_data (props et)) with
              | Some s => let? x := parse_attributes O et r in Ok (fst x, feature_child s v :: snd x)
              | None => Err e
              end
          | None => Err e
          end
      | Panic => Panic
      | OutOfFuel => OutOfFuel
      end
  end.

(* .map_err(add_parseerror(..)) (error.rs:52-63) on a pure result *)
Definition parse_err {A} (r : res A) : res A := match r with Err _ => Err EParse | _ => r end.

(* parser.rs:565-571  ElementData::parse *)
Definition parse_elem (O : oracle) (name : string) (attrs : xattrs) : res (elementdata * list elementdata) :=
  let? et := ok_or (et_from_str name) EParse in
  let? x := parse_err (parse_attributes O et attrs) in
  Ok (mkElem et (fst x) [] None None, snd x).

(* ------------------------------------------------------------------ *)
(* parser.rs:49-83  the root tag *)
Fixpoint root_attrs (d : document) (l : xattrs) : res document :=
  match l with
  | [] => Ok d
  | None :: _ => Panic
  | Some a :: r =>
      if xa_key a =? "xml:id" then let? v := expect (xa_val a) in root_attrs (doc_with_id d v) r
      else if xa_key a =? "version" then let? v := expect (xa_val a) in root_attrs (doc_with_version d v) r
      else root_attrs d r
  end.
Fixpoint parse_root (d : document) (l : list event) : res (document * list event) :=
  match l with
  | [] => Err EParse
  | EvError :: _ => Err EXml
  | EvStart ns name attrs :: r =>
      match ns with
      | NsFolia => if name =? "FoLiA" then let? d' := root_attrs d attrs in Ok (d', r) else Err EParse
      | _ => Err EParse
      end
  | _ :: r => parse_root d r
  end.

(* parser.rs:86-94  local variables of the metadata loop *)
Record mstate : Type := mkMS {
  ms_decls : bool; ms_prov : bool;
  ms_sub : option string; ms_subtype : option string;
  ms_text : option string; ms_meta : option string;
  ms_dk : option nat;
  ms_annotators : list (nat * string);
  ms_procs : list nat  (* stack, top first *) }.
Definition ms_init : mstate := mkMS false false None None None None None [] [].

(* parser.rs:113-125  annotator attributes *)
Fixpoint annotator_attrs (pid : option string) (l : xattrs) : res (option string) :=
  match l with
  | [] => Ok pid
  | None :: _ => Panic
  | Some a :: r =>
      match xa_val a with
      | Some v => if xa_key a =? "processor" then annotator_attrs (Some v) r else annotator_attrs pid r
      | None => annotator_attrs pid r
      end
  end.
(* parser.rs:145-160  metadata attributes *)
Fixpoint metadata_attrs (m : metadata) (l : xattrs) : res metadata :=
  match l with
  | [] => Ok m
  | None :: _ => Panic
  | Some a :: r =>
      match xa_val a with
      | Some v =>
          if xa_key a =? "src" then metadata_attrs (mkMeta (m_data m) (Some v) (m_type m)) r
          else if xa_key a =? "type" then metadata_attrs (mkMeta (m_data m) (m_src m) (Some v)) r
          else metadata_attrs m r
      | None => metadata_attrs m r
      end
  end.
(* parser.rs:168-183  submetadata attributes *)
Fixpoint submetadata_attrs (id ty : option string) (l : xattrs) : res (option string * option string) :=
  match l with
  | [] => Ok (id, ty)
  | None :: _ => Panic
  | Some a :: r =>
      match xa_val a with
      | Some v =>
          if xa_key a =? "xml:id" then submetadata_attrs (Some v) ty r
          else if xa_key a =? "type" then submetadata_attrs id (Some v) r
          else submetadata_attrs id ty r
      | None => submetadata_attrs id ty r
      end
  end.
(* parser.rs:189-201  meta attributes *)
Fixpoint meta_attrs (id : option string) (l : xattrs) : res (option string) :=
  match l with
  | [] => Ok id
  | None :: _ => Panic
  | Some a :: r =>
      match xa_val a with
      | Some v =>
          if (xa_key a =? "id") || (xa_key a =? "xml:id") then meta_attrs (Some v) r else meta_attrs id r
      | None => meta_attrs id r
      end
  end.

(* add a parsed processor to the chain or under the top of the stack (parser.rs:104-110, 206-213) *)
Definition add_parsed_processor (d : document) (stack : list nat) (p : processor) : document * res nat :=
  map_err EParse (match stack with
                  | [] => add_processor d p
                  | top :: _ => add_subprocessor d top p
                  end).

(* parser.rs:101-136  Event::Empty in the metadata *)
Definition meta_empty (d : document) (s : mstate) (ns : xns) (name : string) (attrs : xattrs)
  : document * res mstate :=
  match ns with
  | NsFolia =>
      if (name =? "processor") && ms_prov s then
        let! d, p := (d, parse_err (parse_processor attrs)) in
        let! d, _ := add_parsed_processor d (ms_procs s) p in
        (d, Ok s)
      else if (name =? "annotator") && ms_decls s then
        let! d, pid := (d, annotator_attrs None attrs) in
        match pid, ms_dk s with
        | Some pid, Some dk =>
            (d, Ok (mkMS (ms_decls s) (ms_prov s) (ms_sub s) (ms_subtype s) (ms_text s) (ms_meta s) (ms_dk s)
                         (ms_annotators s ++ [(dk, pid)]) (ms_procs s)))
        | _, _ => (d, Ok s)
        end
      else (d, Ok s)
  | _ => (d, Ok s)
  end.

(* parser.rs:137-237  Event::Start in the metadata *)
Definition meta_start (d : document) (s : mstate) (ns : xns) (name : string) (attrs : xattrs)
  : document * res mstate :=
  match ns with
  | NsFolia =>
      if name =? "metadata" then
        let! d, m := (d, metadata_attrs (doc_metadata d) attrs) in
        (doc_with_metadata d m, Ok s)
      else if name =? "annotations" then
        (d, Ok (mkMS true (ms_prov s) (ms_sub s) (ms_subtype s) (ms_text s) (ms_meta s) (ms_dk s) (ms_annotators s) (ms_procs s)))
      else if name =? "provenance" then
        (d, Ok (mkMS (ms_decls s) true (ms_sub s) (ms_subtype s) (ms_text s) (ms_meta s) (ms_dk s) (ms_annotators s) (ms_procs s)))
      else if name =? "submetadata" then
        let! d, x := (d, submetadata_attrs (ms_sub s) (ms_subtype s) attrs) in
        match fst x with
        | None => (d, Err EParse)
        | Some _ => (d, Ok (mkMS (ms_decls s) (ms_prov s) (fst x) (snd x) (ms_text s) (ms_meta s) (ms_dk s) (ms_annotators s) (ms_procs s)))
        end
      else if name =? "meta" then
        let! d, id := (d, meta_attrs (ms_meta s) attrs) in
        (d, Ok (mkMS (ms_decls s) (ms_prov s) (ms_sub s) (ms_subtype s) None id (ms_dk s) (ms_annotators s) (ms_procs s)))
      else if (name =? "processor") && ms_prov s then
        let! d, p := (d, parse_err (parse_processor attrs)) in
        let! d, k := add_parsed_processor d (ms_procs s) p in
        (d, Ok (mkMS (ms_decls s) (ms_prov s) (ms_sub s) (ms_subtype s) (ms_text s) (ms_meta s) (ms_dk s) (ms_annotators s) (k :: ms_procs s)))
      else if ms_decls s then
        let! d, dec := (d, parse_err (parse_declaration name attrs)) in
        let! d, k := map_err EParse (add_declaration d dec) in
        (d, Ok (mkMS (ms_decls s) (ms_prov s) (ms_sub s) (ms_subtype s) (ms_text s) (ms_meta s) (Some k) (ms_annotators s) (ms_procs s)))
      else (d, Err EParse)
  | _ => (d, Err EParse)
  end.

(* parser.rs:258-264: push the processors of the declarations *)
Fixpoint assign_annotators (d : document) (l : list (nat * string)) : document :=
  match l with
  | [] => d
  | (dk, pid) :: r =>
      assign_annotators
        (match get_processor_key_by_id d pid with
         | Some pk => upd_declaration d dk (fun dec => d_with_processors dec (d_processors dec ++ [pk]))
         | None => d
         end) r
  end.

(* parser.rs:269-283  </meta> *)
Definition meta_close (d : document) (s : mstate) : document :=
  match ms_text s, ms_meta s with
  | Some text, Some id =>
      match ms_sub s with
      | Some sid =>
          match smap_get (doc_submetadata d) sid with
          | Some m =>
              let ty := match m_type m, ms_subtype s with None, Some t => Some t | t, _ => t end in
              doc_with_submetadata d (smap_insert sid (mkMeta (smap_insert id text (m_data m)) (m_src m) ty) (doc_submetadata d))
          | None => d
          end
      | None =>
          let m := doc_metadata d in
          doc_with_metadata d (mkMeta (smap_insert id text (m_data m)) (m_src m) (m_type m))
      end
  | _, _ => d
  end.

(* parser.rs:242-292  Event::End in the metadata; None = leave the loop *)
Definition meta_end (d : document) (s : mstate) (ns : xns) (name : string) : document * option mstate :=
  match ns with
  | NsFolia =>
      if name =? "submetadata" then
        (d, Some (mkMS (ms_decls s) (ms_prov s) None (ms_subtype s) (ms_text s) (ms_meta s) (ms_dk s) (ms_annotators s) (ms_procs s)))
      else if name =? "metadata" then (d, None)
      else if name =? "annotations" then
        (d, Some (mkMS false (ms_prov s) (ms_sub s) (ms_subtype s) (ms_text s) (ms_meta s) (ms_dk s) (ms_annotators s) (ms_procs s)))
      else if name =? "provenance" then
        (assign_annotators d (ms_annotators s),
         Some (mkMS (ms_decls s) false (ms_sub s) (ms_subtype s) (ms_text s) (ms_meta s) (ms_dk s) (ms_annotators s) (ms_procs s)))
      else if (name =? "processor") && ms_prov s then
        (d, Some (mkMS (ms_decls s) (ms_prov s) (ms_sub s) (ms_subtype s) (ms_text s) (ms_meta s) (ms_dk s) (ms_annotators s) (tl (ms_procs s))))
      else if name =? "meta" then (meta_close d s, Some s)
      else if (name =? "annotator") && ms_decls s then (d, Some s)
      else if ms_decls s then
        (d, Some (mkMS (ms_decls s) (ms_prov s) (ms_sub s) (ms_subtype s) (ms_text s) (ms_meta s) None (ms_annotators s) (ms_procs s)))
      else (d, Some s)
  | _ => (d, Some s)
  end.

(* parser.rs:95-291  the metadata loop *)
Fixpoint parse_metadata (d : document) (s : mstate) (l : list event) : document * res (list event) :=
  match l with
  | [] => (d, Err EParse)
  | ev :: r =>
      match ev with
      | EvError => (d, Err EXml)
      | EvEmpty ns name attrs => let! d, s := meta_empty d s ns name attrs in parse_metadata d s r
      | EvStart ns name attrs => let! d, s := meta_start d s ns name attrs in parse_metadata d s r
      | EvText (Some t) =>
          parse_metadata d (mkMS (ms_decls s) (ms_prov s) (ms_sub s) (ms_subtype s) (Some t) (ms_meta s) (ms_dk s) (ms_annotators s) (ms_procs s)) r
      | EvText None => (d, Err EXml)
      | EvEnd ns name =>
          match meta_end d s ns name with
          | (d, None) => (d, Ok r)
          | (d, Some s) => parse_metadata d s r
          end
      | _ => parse_metadata d s r
      end
  end.

(* parser.rs:294-327  find the body. A start tag with unparseable attributes leaves no body. *)
Fixpoint parse_body (O : oracle) (l : list event) : res (option elementdata * list event) :=
  match l with
  | [] => Err EParse
  | EvError :: _ => Err EXml
  | EvStart ns name attrs :: r =>
      let body et :=
        match parse_attributes O et attrs with
        | Ok x => Ok (Some (mkElem et (fst x) [] None None), r)
        | Err _ => Ok (None, r)
        | Panic => Panic
        | OutOfFuel => OutOfFuel
        end in
      match ns with
      | NsFolia => if name =? "text" then body ET_Text
                   else if name =? "speech" then body ET_Speech
                   else Err EParse
      | _ => Err EParse
      end
  | _ :: r => parse_body O r
  end.

(* parser.rs:361-366, 381-384: add the children derived from attributes *)
Fixpoint add_attr_children (d : document) (key : nat) (l : list elementdata) : document * res unit :=
  match l with
  | [] => (d, Ok tt)
  | c :: r =>
      let! d1, ck := store_add d c (Some key) in
      let! d2, _ := attach_element d1 key ck in
      add_attr_children d2 key r
  end.

(* text, CDATA or comment: pushed on the top of the stack unless blank (parser.rs:407-441) *)
Definition push_data (d : document) (stack : list nat) (s : string) (mk : string -> datatype) : document :=
  if is_blank s then d
  else match stack with
       | top :: _ => upd_element d top (fun e => e_push e (mk s))
       | [] => d
       end.

(* one event of parser.rs:341-451; [stack] top first, the code's Vec is its reverse *)
Inductive pstep : Type :=
  | PContinue (stack : list nat)
  | PBreak.

Definition elements_step (fuel : nat) (O : oracle) (d : document) (stack : list nat) (ev : event) : document * res pstep :=
  match ev with
  | EvError => (d, Err EXml)
  | EvEmpty NsFolia name attrs =>
      let! d, x := (d, parse_err (parse_elem O name attrs)) in
      let! d, key := map_err EParse (store_add d (fst x) (hd_error stack)) in
      let! d, _ := (match stack with
                    | top :: _ => attach_element d top key
                    | [] => (d, Ok tt)
                    end) in
      let! d, _ := add_attr_children d key (snd x) in
      let! d, _ := post_add fuel d key (Some (rev stack)) in
      (d, Ok (PContinue stack))
  | EvStart NsFolia name attrs =>
      let! d, x := (d, parse_err (parse_elem O name attrs)) in
      let! d, key := map_err EParse (store_add d (fst x) (hd_error stack)) in
      let! d, _ := add_attr_children d key (snd x) in
      (d, Ok (PContinue (key :: stack)))
  | EvEnd NsFolia name =>
      match stack with
      | key :: (top :: _) as rest =>
          let! d, _ := post_add fuel d key (Some (rev rest)) in
          match get_elementdata d key with
          | None => (d, Err EInternal)
          | Some e =>
              let! d, et := (d, ok_or (et_from_str name) EParse) in
              if et_eqb (e_type e) et then
                let! d, _ := attach_element d top key in
                (d, Ok (PContinue rest))
              else (d, Err EParse)
          end
      | _ => (d, Ok PBreak)
      end
  | EvText (Some s) => (push_data d stack s DText, Ok (PContinue stack))
  | EvCData (Some s) => (push_data d stack s DText, Ok (PContinue stack))
  | EvComment (Some s) => (push_data d stack s DComment, Ok (PContinue stack))
  | EvText None | EvCData None | EvComment None => (d, Err EXml)
  | _ => (d, Ok (PContinue stack))
  end.

Fixpoint parse_elements_loop (fuel : nat) (O : oracle) (d : document) (stack : list nat) (l : list event)
  : document * res unit :=
  match l with
  | [] => (d, Ok tt)
  | ev :: r =>
      let! d, p := elements_step fuel O d stack ev in
      match p with
      | PContinue stack => parse_elements_loop fuel O d stack r
      | PBreak => (d, Ok tt)
      end
  end.
(* parser.rs:341-451  parse_elements *)
Definition parse_elements (fuel : nat) (O : oracle) (d : document) (l : list event) : document * res unit :=
  match st_items (doc_elements d) with
  | [] => (d, Err EInternal)
  | _ => parse_elements_loop fuel O d [0] l
  end.

(* parser.rs:29-338  Document::parse *)
Definition parse_document (fuel : nat) (O : oracle) (p : docprops) (l : list event) : res document :=
  let? x := parse_root (mkDoc "untitled" FOLIAVERSION None st_empty st_empty [] st_empty meta_default [] None (dp_autodeclare p)) l in
  let '(d, l) := x in
  let (d, r) := parse_metadata d ms_init l in
  let? l := r in
  let? y := parse_body O l in
  match y with
  | (Some body, l) =>
      let (d, r) := (let! d, _ := map_err EParse (store_add d body None) in
                     let! d, _ := map_err EParse (apply_properties d p) in
                     parse_elements fuel O d l) in
      let? _ := r in Ok d
  | (None, _) => Err EParse
  end.
