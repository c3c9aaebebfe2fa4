(* Specification vocabulary: documents all of whose strings can be written in XML. *)
From Coq Require Import String List Bool Arith NArith.
From Verif Require Import Base Types SpecTable Attrib Element Store Metadata Document DocOps Xml XmlSpec.
Import ListNotations.
Open Scope list_scope.

Definition legal_option (o : option string) : Prop := forall v, o = Some v -> legal_text v.
(* the values of an element: its own attributes as they are displayed, and the set, subset, class and processor it refers to *)
Definition legal_values (O : oracle) (d : document) (e : elementdata) : Prop :=
  (forall a v, In a (e_attribs e) -> a_display O a = Ok v -> legal_text v) /\
  (forall v, r_set d e = Ok (Some v) \/ r_subset d e = Ok (Some v) \/ r_class d e = Ok (Some v) \/ r_processor d e = Ok (Some v) -> legal_text v).
(* its texts and comments *)
Definition legal_content (e : elementdata) : Prop := (forall s, In (DText s) (e_data e) -> legal_text s) /\ (forall s, In (DComment s) (e_data e) -> comment_text s).
Definition legal_declaration (x : declaration) : Prop := legal_option (d_set x) /\ legal_option (d_alias x) /\ legal_option (d_format x).
Definition legal_processor (p : processor) : Prop :=
  Forall legal_text [pr_id p; pr_name p; pr_version p; pr_folia_version p; pr_document_version p; pr_command p; pr_host p; pr_user p; pr_src p; pr_format p; pr_resourcelink p].
Definition legal_metadata (m : metadata) : Prop :=
  legal_option (m_type m) /\ legal_option (m_src m) /\ forall k v, In (k, v) (m_data m) -> legal_text k /\ legal_text v.
Record legal_document (O : oracle) (d : document) : Prop := {
  legal_id : legal_text (doc_id d);
  legal_meta : legal_metadata (doc_metadata d);
  legal_submeta : forall k m, In (k, m) (doc_submetadata d) -> legal_metadata m;
  legal_decls : forall k x, get_declaration d k = Some x -> legal_declaration x;
  legal_procs : forall k p, get_processor d k = Some p -> legal_processor p;
  legal_elements : forall k e, get_elementdata d k = Some e -> legal_values O d e /\ legal_content e }.
