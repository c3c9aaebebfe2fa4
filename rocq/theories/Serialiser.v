(* Model of /repo/src/serialiser.rs *)
From Coq Require Import String List Bool Arith NArith.
From Verif Require Import Base Types SpecTable Attrib Element Store Metadata Document Select DocOps Xml.
Import ListNotations.
Open Scope string_scope.

Definition NSFOLIA : string := "http://ilk.uvt.nl/folia".
Definition NSXLINK : string := "http://www.w3.org/1999/xlink".

Definition wnl : wevent := WText nl.
Definition oattr (k : string) (v : option string) : list (string * string) :=
  match v with Some v => [(k, v)] | None => [] end.
(* attribute written only if the string is not empty *)
Definition sattr (k v : string) : list (string * string) := if str_is_empty v then [] else [(k, v)].

(* serialiser.rs:101-139  xml_declarations: the <annotator> children *)
Fixpoint w_annotators (d : document) (l : list nat) : res (list wevent) :=
  match l with
  | [] => Ok []
  | pk :: r =>
      match get_processor d pk with
      | Some p => let? x := w_annotators d r in Ok (WEmpty "annotator" [("processor", pr_id p)] :: x)
      | None => Err EInternal
      end
  end.
Definition w_declaration (d : document) (dec : declaration) : res (list wevent) :=
  let tag := at_as_str (d_type dec) ++ "-annotation" in
  let attrs := (oattr "set" (d_set dec) ++ oattr "alias" (d_alias dec) ++ oattr "format" (d_format dec))%list in
  match d_processors dec with
  | [] => Ok [WEmpty tag attrs; wnl]
  | ps => let? x := w_annotators d ps in Ok (WStart tag attrs :: x ++ [WEnd tag; wnl])%list
  end.
Fixpoint w_declaration_list (d : document) (l : list (option declaration)) : res (list wevent) :=
  match l with
  | [] => Ok []
  | None :: r => w_declaration_list d r
  | Some dec :: r =>
      let? x := w_declaration d dec in
      let? y := w_declaration_list d r in
      Ok (x ++ y)%list
  end.
Definition w_declarations (d : document) : res (list wevent) :=
  let? x := w_declaration_list d (st_items (doc_decls d)) in
  Ok (WStart "annotations" [] :: wnl :: x ++ [WEnd "annotations"; wnl])%list.

(* serialiser.rs:152-203  xml_processor: attributes *)
Definition proc_attrs (p : processor) : list (string * string) :=
  ([("xml:id", pr_id p); ("name", pr_name p); ("type", pt_as_str (pr_type p))] ++
   sattr "version" (pr_version p) ++ sattr "folia_version" (pr_folia_version p) ++
   sattr "document_version" (pr_document_version p) ++ sattr "command" (pr_command p) ++
   sattr "host" (pr_host p) ++ sattr "user" (pr_user p) ++
   oattr "begindatetime" (option_map dt_print (pr_begin p)) ++
   oattr "enddatetime" (option_map dt_print (pr_end p)) ++
   sattr "src" (pr_src p) ++ sattr "format" (pr_format p) ++ sattr "resourcelink" (pr_resourcelink p))%list.

(* apply a writer to every key in turn *)
Fixpoint w_each (f : nat -> res (list wevent)) (l : list nat) : res (list wevent) :=
  match l with
  | [] => Ok []
  | k :: r => let? x := f k in let? y := w_each f r in Ok (x ++ y)%list
  end.
(* serialiser.rs:152-203  xml_processor; the fuel bounds the recursion into subprocessors *)
Fixpoint w_processor (fuel : nat) (d : document) (k : nat) : res (list wevent) :=
  match fuel with
  | 0 => OutOfFuel
  | S f =>
      match get_processor d k with
      | None => Ok []
      | Some p =>
          match pr_processors p with
          | [] => Ok [WEmpty "processor" (proc_attrs p); wnl]
          | subs =>
              let? x := w_each (w_processor f d) subs in
              Ok (WStart "processor" (proc_attrs p) :: x ++ [WEnd "processor"; wnl])%list
          end
      end
  end.
(* serialiser.rs:141-150  xml_provenance *)
Definition w_provenance (fuel : nat) (d : document) : res (list wevent) :=
  let? x := w_each (w_processor fuel d) (doc_chain d) in
  Ok (WStart "provenance" [] :: wnl :: x ++ [WEnd "provenance"; wnl])%list.

(* serialiser.rs:70-77, 88-95  <meta> elements; the order of a HashMap is a choice, here the list order *)
Definition w_meta (p : string * string) : list wevent :=
  [WStart "meta" [("id", fst p)]; WText (snd p); WEnd "meta"; wnl].

(* serialiser.rs:57-99  xml_metadata. The start tag of submetadata is built but never written. *)
Definition w_metadata (fuel : nat) (d : document) : res (list wevent) :=
  let? decls := w_declarations d in
  let? prov := w_provenance fuel d in
  Ok (WStart "metadata" (oattr "type" (m_type (doc_metadata d)) ++ oattr "src" (m_src (doc_metadata d))) :: wnl ::
      decls ++ prov ++
      flat_map w_meta (m_data (doc_metadata d)) ++
      flat_map (fun p => flat_map w_meta (m_data (snd p))) (doc_submetadata d) ++
      [WEnd "metadata"; wnl])%list.

(* ------------------------------------------------------------------ *)
(* serialiser.rs:230-234: the plain attributes *)
Fixpoint w_plain_attrs (O : oracle) (l : list Attribute) : res (list (string * string)) :=
  match l with
  | [] => Ok []
  | A_Ignore :: r => w_plain_attrs O r
  | a :: r =>
      if decodable a then w_plain_attrs O r
      else
        let? v := a_display O a in
        let? x := w_plain_attrs O r in
        Ok ((ab_as_str (attribtype a), v) :: x)
  end.

(* serialiser.rs:235-265: the decoded attributes; [mask] = default_mask() *)
Definition w_decoded_attrs (d : document) (mask : list bool) (e : elementdata) : res (list (string * string)) :=
  let? dk := r_declaration_key e in
  match dk with
  | None => Ok []
  | Some dk =>
      let? isdef := expect (nth_error mask dk) in
      let? set := (if negb isdef && negb (et_eqb (e_type e) ET_Feature) then r_set d e else Ok None) in
      let? subset := r_subset d e in
      let? class := r_class d e in
      let? proc := r_processor d e in
      let? pk := (match proc with Some _ => r_processor_key e | None => Ok None end) in
      let procattr :=
        match proc with
        | Some p =>
            let is_default :=
              match get_declaration d dk with
              | Some dec =>
                  match d_processors dec with
                  | [x] => match pk with Some y => Nat.eqb x y | None => false end
                  | _ => false
                  end
              | None => false
              end in
            if is_default then [] else [("processor", p)]
        | None => []
        end in
      Ok (oattr "set" set ++ oattr "subset" subset ++ oattr "class" class ++ procattr)%list
  end.

Definition elem_attrs (O : oracle) (d : document) (mask : list bool) (e : elementdata) : res (list (string * string)) :=
  let? a := w_plain_attrs O (e_attribs e) in
  let? b := w_decoded_attrs d mask e in
  Ok (a ++ b)%list.

Definition is_markup (et : ElementType) : bool := group_contains EG_TextMarkup et.
(* serialiser.rs:277: newline after the start (or empty) tag? *)
Definition nl_after_start (et : ElementType) : bool :=
  negb (is_markup et) && negb (et_eqb et ET_TextContent) && negb (et_eqb et ET_PhonContent).

(* serialiser.rs:216-227: close elements until the depth of the item; stack top first *)
Fixpoint w_close (n : nat) (stack : list (string * ElementType)) : res (list wevent * list (string * ElementType)) :=
  match n with
  | 0 => Ok ([], stack)
  | S k =>
      match stack with
      | [] => Err ESerialisation
      | (tag, et) :: r =>
          let? x := w_close k r in
          Ok ((WEnd tag :: (if is_markup et then [] else [wnl]) ++ fst x)%list, snd x)
      end
  end.

(* serialiser.rs:215-300: the loop over the items *)
Fixpoint w_items (O : oracle) (d : document) (mask : list bool) (depth : nat)
    (stack : list (string * ElementType)) (l : list selectitem) : res (list wevent) :=
  match l with
  | [] => Ok (map (fun p => WEnd (fst p)) stack)
  | i :: r =>
      let? x := w_close (depth - si_depth i) stack in
      let '(closing, stack) := x in
      match si_data i with
      | DElement k =>
          match get_elementdata d k with
          | Some e =>
              let tag := et_as_str (e_type e) in
              let? attrs := elem_attrs O d mask e in
              let tail := if nl_after_start (e_type e) then [wnl] else [] in
              match e_data e with
              | [] =>
                  let? y := w_items O d mask (si_depth i) stack r in
                  Ok (closing ++ WEmpty tag attrs :: tail ++ y)%list
              | _ =>
                  let? y := w_items O d mask (si_depth i) ((tag, e_type e) :: stack) r in
                  Ok (closing ++ WStart tag attrs :: tail ++ y)%list
              end
          | None => let? y := w_items O d mask (si_depth i) stack r in Ok (closing ++ y)%list
          end
      | DText s => let? y := w_items O d mask (si_depth i) stack r in Ok (closing ++ WText s :: y)%list
      | DComment s => let? y := w_items O d mask (si_depth i) stack r in Ok (closing ++ WComment s :: y)%list
      | DSpanReference _ | DAddElement _ =>
          let? y := w_items O d mask (si_depth i) stack r in Ok (closing ++ y)%list
      end
  end.

(* serialiser.rs:206-309  xml_elements *)
Definition xml_elements (fuel : nat) (O : oracle) (d : document) (root : nat) : res (list wevent) :=
  let? items := select_data_by_key fuel d root sel_all_data RAlways true false in
  w_items O d (default_mask (doc_decls d)) 0 [] items.

(* element.rs:441-454  Element::xml *)
Definition element_xml (fuel : nat) (O : oracle) (d : document) (key : nat) : res (list wevent) :=
  xml_elements fuel O d key.

(* serialiser.rs:32-55  Document::xml *)
Definition doc_xml (fuel : nat) (O : oracle) (d : document) (root : nat) : res (list wevent) :=
  let? m := w_metadata fuel d in
  let? b := xml_elements fuel O d root in
  Ok (WStart "FoLiA" [("xmlns", NSFOLIA); ("xmlns:xlink", NSXLINK); ("xml:id", doc_id d);
                      ("version", FOLIAVERSION); ("generator", GENERATOR)] :: wnl ::
      m ++ b ++ [wnl; WEnd "FoLiA"])%list.
