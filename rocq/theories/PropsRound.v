(* Properties C55, C56 and C63: what survives writing a document as XML and loading it again. *)
From Coq Require Import String List Bool Arith NArith Lia.
From Verif Require Import Base BaseFacts Types TypesFacts SpecTable Attrib Element Store StoreFacts Metadata Document Select DocOps Xml Parser Serialiser History Spec
  FrameFacts InvFacts DocFacts Examples EncodeFacts LinkFacts TreeFacts ForestFacts ParseSpec ParseFacts PropsParse PropsProv RoundFacts RoundProv.
Import ListNotations.
Open Scope string_scope.
Open Scope list_scope.

(* [saved_and_loaded d d']: d is written as XML from element root, with any indentation, and the result is loaded
   with the properties p, giving d'. (reread, in Xml.v, is what the XML library makes of the written events.) *)
Definition saved_and_loaded (p : docprops) (d d' : document) : Prop :=
  exists fuel O root w indent fuel' O', doc_xml fuel O d root = Ok w /\ parse_document fuel' O' p (reread indent w) = Ok d'.
Lemma saved_parts p d d' : saved_and_loaded p d d' -> exists i fuel O fuel' O' root m b d1 d2 r2, w_metadata fuel d = Ok m /\ xml_elements fuel O d root = Ok b /\
  loading i fuel' O' p (doc_id d) (m ++ b ++ [wnl; WEnd "FoLiA"]) d' d1 d2 r2.
Proof.
  intros (fuel & O & root & w & i & fuel' & O' & W & L). unfold doc_xml in W. apply rbind_ok in W. destruct W as (m & M & W). apply rbind_ok in W. destruct W as (b & B & W). injection W as <-.
  destruct (load_parts _ _ _ _ _ _ _ L) as (d1 & d2 & r2 & LD). exists i, fuel, O, fuel', O', root, m, b, d1, d2, r2. auto.
Qed.

(* ---------------------------------------------------------------- C56: metadata *)
(* the same type, source and value for every key *)
Definition same_metadata (a b : metadata) : Prop :=
  m_type a = m_type b /\ m_src a = m_src b /\ forall k, smap_get (m_data a) k = smap_get (m_data b) k.
(* The key/value pairs may be listed (hence written) in any order; as in a hash map no key occurs twice.
   Missing for the full claim: empty values and submetadata, see the refutations below. *)
Theorem C56_metadata_round_trip_partial : forall p d d',
  NoDup (map fst (m_data (doc_metadata d))) ->
  (forall k, smap_get (m_data (doc_metadata d)) k <> Some "") ->
  (forall id x, In (id, x) (doc_submetadata d) -> m_data x = []) ->
  saved_and_loaded p d d' -> same_metadata (doc_metadata d') (doc_metadata d).
Proof.
  intros p d d' ND NE SUB SL. destruct (saved_parts _ _ _ SL) as (i & fuel & O & fuel' & O' & root & m & b & d1 & d2 & r2 & WM & _ & LD).
  destruct (loaded_metadata _ _ _ _ _ _ _ _ _ _ LD) as (E & _). rewrite E.
  refine (proj1 (metadata_read i fuel d m d1 ms_init _ d2 r2 WM eq_refl _ ND _ SUB (ld_read _ _ _ _ _ _ _ _ _ _ LD))).
  - rewrite (ld_root _ _ _ _ _ _ _ _ _ _ LD). reflexivity.
  - intros k v I' ->. apply (NE k). clear - ND I'. induction (m_data (doc_metadata d)) as [|[k0 v0] l IH]; [destruct I'|]. inversion_clear ND as [|? ? NI ND']. cbn. destruct I' as [E|I'].
    + injection E as -> ->. rewrite String.eqb_refl. reflexivity.
    + destruct (String.eqb_spec k k0) as [->|N]; [|apply IH; assumption]. exfalso. apply NI. apply (in_map fst) in I'. exact I'.
Qed.
Print Assumptions C56_metadata_round_trip_partial.

(* the number formatter and parser of the examples *)
Definition rt_oracle : oracle := mkOracle (fun _ => Some 7%N) (fun _ => "0.5").
Definition round_trip (i : nat) (d : document) : option document :=
  match doc_xml fuel1 rt_oracle d 0 with
  | Ok w => match parse_document fuel1 rt_oracle no_props (reread i w) with Ok d' => Some d' | _ => None end
  | _ => None
  end.
Lemma round_trip_saved i d d' : round_trip i d = Some d' -> saved_and_loaded no_props d d'.
Proof.
  unfold round_trip. destruct (doc_xml fuel1 rt_oracle d 0) as [w|e| |] eqn:W; try discriminate. destruct (parse_document _ _ _ _) as [x|e| |] eqn:P; try discriminate. intros H. injection H as <-.
  exists fuel1, rt_oracle, 0, w, i, fuel1, rt_oracle. auto.
Qed.
Lemma round_case i d (P : document -> bool) : match round_trip i d with Some d' => P d' | None => false end = true -> exists d', saved_and_loaded no_props d d' /\ P d' = true.
Proof. destruct (round_trip i d) as [d'|] eqn:R; [|discriminate]. intros H. exists d'. split; [eapply round_trip_saved, R|exact H]. Qed.
Definition has_value (k : string) (v : option string) (d : document) : bool :=
  match smap_get (m_data (doc_metadata d)) k, v with Some a, Some b => String.eqb a b | None, None => true | _, _ => false end.
Lemma has_value_spec k v d : has_value k v d = true -> smap_get (m_data (doc_metadata d)) k = v.
Proof. unfold has_value. destruct (smap_get _ _), v; try discriminate; [|reflexivity]. intros H. apply String.eqb_eq in H. congruence. Qed.
Lemma with_metadata d m : doc_metadata (doc_with_metadata d m) = m.
Proof. reflexivity. Qed.
Lemma ex_no_submetadata : doc_submetadata ex_doc = [].
Proof. vm_compute. reflexivity. Qed.
(* the value "" is written but not read back *)
Definition empty_value : metadata := mkMeta [("note", "")] None None.
Theorem C56_empty_value_refuted : exists d d', NoDup (map fst (m_data (doc_metadata d))) /\ doc_submetadata d = [] /\ saved_and_loaded no_props d d' /\
  smap_get (m_data (doc_metadata d)) "note" = Some "" /\ smap_get (m_data (doc_metadata d')) "note" = None.
Proof.
  assert (X : exists x, doc_submetadata x = [] /\ exists d', saved_and_loaded no_props (doc_with_metadata x empty_value) d' /\ has_value "note" None d' = true).
  { exists ex_doc. split; [exact ex_no_submetadata|]. apply (round_case 0). vm_compute. reflexivity. }
  destruct X as (x & NS & d' & SL & V). exists (doc_with_metadata x empty_value), d'. split; [repeat constructor; intros []|]. split; [exact NS|]. split; [exact SL|]. split; [reflexivity|]. apply has_value_spec, V.
Qed.
Print Assumptions C56_empty_value_refuted.
(* the pairs of a submetadata block come back as metadata of the document, and replace values there *)
Definition with_part (d : document) : document := doc_with_submetadata (doc_with_metadata d (mkMeta [("language", "nld")] None None)) [("part2", mkMeta [("language", "eng")] None None)].
Theorem C56_submetadata_refuted : exists d d', NoDup (map fst (m_data (doc_metadata d))) /\ (forall k, smap_get (m_data (doc_metadata d)) k <> Some "") /\ saved_and_loaded no_props d d' /\
  smap_get (m_data (doc_metadata d)) "language" = Some "nld" /\ smap_get (m_data (doc_metadata d')) "language" = Some "eng" /\ doc_submetadata d' = [].
Proof.
  assert (X : exists x d', saved_and_loaded no_props (with_part x) d' /\ has_value "language" (Some "eng") d' && match doc_submetadata d' with [] => true | _ => false end = true).
  { exists ex_doc. apply (round_case 0 _ (fun d' => has_value "language" (Some "eng") d' && match doc_submetadata d' with [] => true | _ => false end)). vm_compute. reflexivity. }
  destruct X as (x & d' & SL & V). apply andb_prop in V. destruct V as (V & V2). exists (with_part x), d'. split; [repeat constructor; intros []|]. split; [|split; [exact SL|]].
  - intros k. cbn. destruct (String.eqb k "language"); discriminate.
  - split; [reflexivity|]. split; [apply has_value_spec, V|]. destruct (doc_submetadata d'); [reflexivity|discriminate].
Qed.
Print Assumptions C56_submetadata_refuted.
Definition three_pairs : metadata := mkMeta [("language", "nld"); ("title", "a < b & c"); ("author", "someone")] (Some "meta.cmdi") (Some "native").
Example C56_nonvacuous : exists d d', NoDup (map fst (m_data (doc_metadata d))) /\ (forall k, smap_get (m_data (doc_metadata d)) k <> Some "") /\
  (forall id x, In (id, x) (doc_submetadata d) -> m_data x = []) /\ saved_and_loaded no_props d d' /\ length (m_data (doc_metadata d')) = 3.
Proof.
  assert (X : exists x, doc_submetadata x = [] /\ exists d', saved_and_loaded no_props (doc_with_metadata x three_pairs) d' /\ Nat.eqb (length (m_data (doc_metadata d'))) 3 = true).
  { exists ex_doc. split; [exact ex_no_submetadata|]. apply (round_case 2 _ (fun d' => Nat.eqb (length (m_data (doc_metadata d'))) 3)). vm_compute. reflexivity. }
  destruct X as (x & NS & d' & SL & V). exists (doc_with_metadata x three_pairs), d'. split; [|split; [|split; [|split; [exact SL|apply Nat.eqb_eq, V]]]].
  - repeat constructor; cbn; intuition discriminate.
  - intros k. cbn. repeat (destruct (String.eqb k _); [discriminate|]). discriminate.
  - intros id y H. change (doc_submetadata (doc_with_metadata x three_pairs)) with (doc_submetadata x) in H. rewrite NS in H. destruct H.
Qed.

(* ---------------------------------------------------------------- C63: the document *)
Definition naming (d : document) : string * string := (doc_id d, doc_version d).
Lemma beside_naming a b : beside a b -> naming b = naming a.
Proof. intros ->. reflexivity. Qed.
Lemma meta_start_id d s ns n a : naming (fst (meta_start d s ns n a)) = naming d.
Proof.
  unfold meta_start. destruct ns; try reflexivity. destruct (String.eqb n "metadata"); [destruct (metadata_attrs _ _); reflexivity|]. destruct (String.eqb n "annotations"); [reflexivity|].
  destruct (String.eqb n "provenance"); [reflexivity|]. destruct (String.eqb n "submetadata"); [destruct (submetadata_attrs _ _ _) as [[[x|] y]|e| |]; reflexivity|].
  destruct (String.eqb n "meta"); [destruct (meta_attrs _ _); reflexivity|]. destruct (String.eqb n "processor" && ms_prov s).
  - destruct (parse_err _) as [p|e| |]; try reflexivity. cbn [sbind]. pose proof (beside_parsed_processor d (ms_procs s) p) as B. destruct (add_parsed_processor d (ms_procs s) p) as [d1 r]. apply beside_naming in B.
    destruct r; apply B.
  - destruct (ms_decls s); [|reflexivity]. destruct (parse_err _) as [x|e| |]; try reflexivity. cbn [sbind]. pose proof (beside_declaration d x) as B. destruct (add_declaration d x) as [d1 r]. apply beside_naming in B. destruct r; apply B.
Qed.
Lemma meta_empty_id d s ns n a : naming (fst (meta_empty d s ns n a)) = naming d.
Proof.
  unfold meta_empty. destruct ns; try reflexivity. destruct (String.eqb n "processor" && ms_prov s).
  - destruct (parse_err _) as [p|e| |]; try reflexivity. cbn [sbind]. pose proof (beside_parsed_processor d (ms_procs s) p) as B. destruct (add_parsed_processor d (ms_procs s) p) as [d1 r]. apply beside_naming in B. destruct r; apply B.
  - destruct (String.eqb n "annotator" && ms_decls s); [|reflexivity]. destruct (annotator_attrs _ _) as [[pid|]|e| |]; try reflexivity. cbn [sbind]. destruct (ms_dk s); reflexivity.
Qed.
Lemma meta_end_id d s ns n : naming (fst (meta_end d s ns n)) = naming d.
Proof.
  unfold meta_end. destruct ns; try reflexivity. destruct (String.eqb n "submetadata"); [reflexivity|]. destruct (String.eqb n "metadata"); [reflexivity|]. destruct (String.eqb n "annotations"); [reflexivity|].
  destruct (String.eqb n "provenance"); [apply (beside_naming _ _ (beside_annotators (ms_annotators s) d))|]. destruct (String.eqb n "processor" && ms_prov s); [reflexivity|]. destruct (String.eqb n "meta").
  - cbn [fst]. unfold meta_close. destruct (ms_text s), (ms_meta s); try reflexivity. destruct (ms_sub s) as [sid|]; [|reflexivity]. destruct (smap_get _ _); reflexivity.
  - destruct (String.eqb n "annotator" && ms_decls s); [reflexivity|]. destruct (ms_decls s); reflexivity.
Qed.
Lemma parse_metadata_id l : forall d s, naming (fst (parse_metadata d s l)) = naming d.
Proof.
  induction l as [|ev l IH]; intros d s; cbn [parse_metadata]; [reflexivity|]. destruct ev as [ns n a|ns n a|ns n|[x|]|x|x| |]; try reflexivity; try apply IH.
  - pose proof (meta_start_id d s ns n a) as E. destruct (meta_start d s ns n a) as [d1 [s1|e| |]]; cbn [sbind fst] in *; try exact E. rewrite IH. exact E.
  - pose proof (meta_empty_id d s ns n a) as E. destruct (meta_empty d s ns n a) as [d1 [s1|e| |]]; cbn [sbind fst] in *; try exact E. rewrite IH. exact E.
  - pose proof (meta_end_id d s ns n) as E. destruct (meta_end d s ns n) as [d1 [s1|]]; cbn [fst] in *; [|exact E]. rewrite IH. exact E.
Qed.
(* The ID of the document survives; the version becomes that of the library. *)
Theorem C63_document_id_round_trip : forall p d d', saved_and_loaded p d d' -> doc_id d' = doc_id d /\ doc_version d' = FOLIAVERSION.
Proof.
  intros p d d' SL. destruct (saved_parts _ _ _ SL) as (i & fuel & O & fuel' & O' & root & m & b & d1 & d2 & r2 & WM & _ & LD).
  destruct (loaded_metadata _ _ _ _ _ _ _ _ _ _ LD) as (_ & E & F & _). rewrite E, F. destruct (ld_read _ _ _ _ _ _ _ _ _ _ LD) as (dep & acc & brk & t & H).
  pose proof (parse_metadata_id (rd i dep acc brk (m ++ b ++ [wnl; WEnd "FoLiA"])) d1 (put_text ms_init t)) as Q. rewrite H in Q. cbn [fst] in Q. rewrite (ld_root _ _ _ _ _ _ _ _ _ _ LD) in Q. injection Q as Q1 Q2. auto.
Qed.
Print Assumptions C63_document_id_round_trip.
Example C63_nonvacuous : exists d', saved_and_loaded no_props ex_doc d' /\ doc_id d' = "example".
Proof.
  destruct (round_case 2 ex_doc (fun d' => String.eqb (doc_id d') "example")) as (d' & SL & V); [vm_compute; reflexivity|]. exists d'. split; [exact SL|]. apply String.eqb_eq, V.
Qed.

(* ---------------------------------------------------------------- C55: declarations and provenance *)
Lemma loaded_provenance i fuel O p id rest d' d1 d2 r2 : dp_processor p = None -> loading i fuel O p id rest d' d1 d2 r2 -> doc_procs d' = doc_procs d2 /\ doc_chain d' = doc_chain d2 /\ doc_le d2 d'.
Proof.
  intros NP [_ _ (b & r3 & d3 & d4 & k & B & SA & AP & PE)].
  destruct (parse_body_guard normal O r2 r2 b r3 (load_ok_normal _ _) (incl_refl _) B) as (GB & IN).
  assert (A3 : aside d2 d3) by (pose proof (aside_store d2 b None) as Q; rewrite SA in Q; exact Q). assert (A5 : aside d4 d') by (pose proof (aside_elements fuel O d4 r3) as Q; rewrite PE in Q; exact Q).
  assert (A4 : aside d3 d4). { unfold apply_properties in AP. rewrite NP in AP. cbn [sbind] in AP. pose proof (aside_declares (dp_declare p) d3) as Q. rewrite AP in Q. exact Q. }
  destruct (aside_meta _ _ (aside_trans _ _ _ (aside_trans _ _ _ A3 A4) A5)) as (_ & _ & _ & EP & EC & _). split; [exact EP|]. split; [exact EC|].
  apply prims_doc_le. eapply rtc_trans; [pose proof (store_add_prims normal d2 b None GB) as Q; rewrite SA in Q; exact Q|].
  eapply rtc_trans.
  - unfold apply_properties in AP. rewrite NP in AP. cbn [sbind] in AP. pose proof (apply_declares_p0 normal (go_decl _ normal_ok) (dp_declare p) d3) as Q. rewrite AP in Q. apply lift, Q.
  - unfold parse_elements in PE. destruct (st_items (doc_elements d4)); [discriminate|]. pose proof (parse_elements_loop_prims normal fuel O r2 r3 (load_ok_normal _ _) IN d4 [0]) as Q. rewrite PE in Q. exact Q.
Qed.

(* [listed d ks l] (RoundProv.v): l lists the processors ks with all processors below them, a processor before those below it.
   [same_processor d d' par k k'] (RoundProv.v): processor k' of d' has the values of processor k of d, its parent is par, it is found under the ID of k,
   and the processors below it are in the same way the processors below k, in the same order. *)
Definition same_declaration (d d' : document) (x y : declaration) : Prop :=
  d_type y = d_type x /\ d_set y = d_set x /\ d_alias y = d_alias x /\ d_format y = d_format x /\
  exists ks more, d_processors y = ks ++ more /\ Forall2 (fun a b => exists par, same_processor d d' par a b) (d_processors x) ks.
(* All processors of the provenance chain and all declarations that have processors come back, in the same order, with the same values; the declaration keys are the same too.
   Missing for the full claim: declarations without processors, processors that are not in the chain, dates and the metadata of processors (refuted below), and
   that loading the body adds no processor (more) to a declaration. *)
Theorem C55_provenance_round_trip_partial : forall p d d' l,
  reachable anything d -> listed d (doc_chain d) l -> NoDup l ->
  (forall k x, get_declaration d k = Some x -> d_processors x <> [] /\ incl (d_processors x) l) ->
  dp_processor p = None -> saved_and_loaded p d d' ->
  Forall2 (same_processor d d' None) (doc_chain d) (doc_chain d') /\
  forall k x, get_declaration d k = Some x -> exists y, get_declaration d' k = Some y /\ same_declaration d d' x y.
Proof.
  intros p d d' l RE LS ND HD NP SL. destruct (saved_parts _ _ _ SL) as (i & fuel & O & fuel' & O' & root & m & b & d1 & d2 & r2 & WM & _ & LD).
  destruct (loaded_provenance _ _ _ _ _ _ _ _ _ _ NP LD) as (EP & EC & LE). pose proof (ld_root _ _ _ _ _ _ _ _ _ _ LD) as E1.
  destruct (provenance_read i fuel d m d1 (b ++ [wnl; WEnd "FoLiA"]) d2 r2 l RE LS ND HD WM) as (CH & DE & _); try (rewrite E1; reflexivity); [exact (ld_read _ _ _ _ _ _ _ _ _ _ LD)|].
  assert (SAME : forall par a b, same_processor d d2 par a b -> same_processor d d' par a b) by (apply same_kept; exact EP).
  split; [rewrite EC; eapply Forall2_imp; [|exact CH]; auto|]. intros k x G. destruct (DE k x G) as (y & GY & T & S & A & F & PR). destruct LE as [_ (KE & _ & _) _].
  destruct (KE k y GY) as (z & GZ & [KK KT KS KA KF (more & KP) _ _ _ _ _ _]). exists z. split; [exact GZ|]. split; [congruence|]. split; [congruence|]. split; [congruence|]. split; [congruence|].
  exists (d_processors y), more. split; [exact KP|]. eapply Forall2_imp; [|exact PR]. intros a c (par & Q). exists par. apply SAME, Q.
Qed.
Print Assumptions C55_provenance_round_trip_partial.

Lemma ex_after ops (P : document -> bool) : match exec fuel1 ex_doc ops with Some d => P d | None => false end = true -> exists d, reachable normal d /\ P d = true.
Proof. destruct (exec fuel1 ex_doc ops) as [d|] eqn:E; [|discriminate]. intros H. exists d. split; [eapply exec_reachable; [exact ex_reachable|exact E]|exact H]. Qed.
Definition is_some {A} (o : option A) : bool := match o with Some _ => true | None => false end.
Lemma is_some_spec {A} (o : option A) : is_some o = true -> o <> None.
Proof. destruct o; discriminate. Qed.
Lemma is_none_spec {A} (o : option A) : negb (is_some o) = true -> o = None.
Proof. destruct o; [discriminate|reflexivity]. Qed.
(* a declaration without processors is written but ignored when it is read *)
Theorem C55_bare_declaration_refuted : exists d d' k x, reachable normal d /\ get_declaration d k = Some x /\ d_processors x = [] /\ saved_and_loaded no_props d d' /\
  get_declaration_key_by_id d (index_id (d_type x) (d_set x)) = Some k /\ get_declaration_key_by_id d' (index_id (d_type x) (d_set x)) = None.
Proof.
  destruct (ex_after [OAddDeclaration (d_new AT_SENTIMENT (Some "sentset") None None)] (fun d =>
    match get_declaration_key_by_id d "sentiment/sentset" with
    | Some k => match get_declaration d k with
                | Some x => (Nat.eqb (length (d_processors x)) 0 && String.eqb (index_id (d_type x) (d_set x)) "sentiment/sentset") &&
                            match round_trip 0 d with Some d' => negb (is_some (get_declaration_key_by_id d' "sentiment/sentset")) | None => false end
                | None => false end
    | None => false end)) as (d & R & P); [vm_compute; reflexivity|].
  destruct (get_declaration_key_by_id d "sentiment/sentset") as [k|] eqn:K; [|discriminate]. destruct (get_declaration d k) as [x|] eqn:X; [|discriminate].
  apply andb_prop in P. destruct P as (P1 & P2). apply andb_prop in P1. destruct P1 as (P0 & P1). apply String.eqb_eq in P1. apply Nat.eqb_eq, length_zero_iff_nil in P0.
  destruct (round_trip 0 d) as [d'|] eqn:RT; [|discriminate]. exists d, d', k, x. rewrite P1. split; [exact R|]. split; [exact X|]. split; [exact P0|]. split; [eapply round_trip_saved, RT|]. split; [exact K|apply is_none_spec, P2].
Qed.
Print Assumptions C55_bare_declaration_refuted.
(* a processor that is not in the chain is not written *)
Theorem C55_loose_processor_refuted : exists d d' id, reachable normal d /\ saved_and_loaded no_props d d' /\ get_processor_key_by_id d id <> None /\ get_processor_key_by_id d' id = None.
Proof.
  destruct (ex_after [OAddProvenance (pr_new "proc3" "parser")] (fun d => is_some (get_processor_key_by_id d "proc3") &&
      match round_trip 0 d with Some d' => negb (is_some (get_processor_key_by_id d' "proc3")) | None => false end)) as (d & R & P); [vm_compute; reflexivity|].
  apply andb_prop in P. destruct P as (P1 & P2). destruct (round_trip 0 d) as [d'|] eqn:RT; [|discriminate]. exists d, d', "proc3". split; [exact R|]. split; [eapply round_trip_saved, RT|].
  split; [apply is_some_spec, P1|apply is_none_spec, P2].
Qed.
Print Assumptions C55_loose_processor_refuted.
(* the metadata of a processor is not written *)
Definition proc4 : processor := mkProc "proc4" "parser" PT_Auto "1.0" "" "" "" "" "" None None [] "" "" "" None (mkMeta [("language", "nld")] None None) None [].
Theorem C55_processor_metadata_refuted : exists d d' id k k' p q, reachable normal d /\ saved_and_loaded no_props d d' /\ In k (doc_chain d) /\
  get_processor_key_by_id d id = Some k /\ get_processor d k = Some p /\ get_processor_key_by_id d' id = Some k' /\ get_processor d' k' = Some q /\
  smap_get (m_data (pr_metadata p)) "language" = Some "nld" /\ m_data (pr_metadata q) = [].
Proof.
  destruct (ex_after [OAddProcessor proc4] (fun d => match round_trip 0 d with
      | Some d' => match get_processor_key_by_id d "proc4", get_processor_key_by_id d' "proc4" with
                   | Some k, Some k' => match get_processor d k, get_processor d' k' with
                       | Some p, Some q => (existsb (Nat.eqb k) (doc_chain d) && match smap_get (m_data (pr_metadata p)) "language" with Some v => String.eqb v "nld" | None => false end) && Nat.eqb (length (m_data (pr_metadata q))) 0
                       | _, _ => false end
                   | _, _ => false end
      | None => false end)) as (d & R & P); [vm_compute; reflexivity|].
  destruct (round_trip 0 d) as [d'|] eqn:RT; [|discriminate]. destruct (get_processor_key_by_id d "proc4") as [k|] eqn:K; [|discriminate]. destruct (get_processor_key_by_id d' "proc4") as [k'|] eqn:K'; [|discriminate].
  destruct (get_processor d k) as [p|] eqn:G; [|discriminate]. destruct (get_processor d' k') as [q|] eqn:G'; [|discriminate].
  apply andb_prop in P. destruct P as (P & P3). apply andb_prop in P. destruct P as (P1 & P2). apply existsb_exists in P1. destruct P1 as (k0 & P1 & E). apply Nat.eqb_eq in E. subst k0.
  exists d, d', "proc4", k, k', p, q. split; [exact R|]. split; [eapply round_trip_saved, RT|]. split; [exact P1|]. split; [exact K|]. split; [exact G|]. split; [exact K'|]. split; [exact G'|].
  split; [|apply length_zero_iff_nil, Nat.eqb_eq, P3]. destruct (smap_get _ _); [|discriminate]. apply String.eqb_eq in P2. congruence.
Qed.
Print Assumptions C55_processor_metadata_refuted.

(* the processors with keys ks and all below them *)
Definition list_each (below : nat -> option (list nat)) : list nat -> option (list nat) :=
  fix each l := match l with [] => Some [] | c :: r => match below c, each r with Some a, Some b => Some (a ++ b) | _, _ => None end end.
Fixpoint list_below (fuel : nat) (d : document) (k : nat) : option (list nat) :=
  match fuel with
  | 0 => None
  | S f => match get_processor d k with Some p => option_map (cons k) (list_each (list_below f d) (pr_processors p)) | None => None end
  end.
Definition list_all (fuel : nat) (d : document) : list nat -> option (list nat) := list_each (list_below fuel d).
Lemma list_all_spec fuel d : forall ks l, list_all fuel d ks = Some l -> listed d ks l.
Proof.
  induction fuel as [|f IHF]; intros ks; (induction ks as [|k ks IH]; intros l H; [injection H as <-; constructor|]); unfold list_all in *; [discriminate H|].
  change (list_each (list_below (S f) d) (k :: ks)) with (match match get_processor d k with Some p => option_map (cons k) (list_each (list_below f d) (pr_processors p)) | None => None end, list_each (list_below (S f) d) ks with Some a, Some b => Some (a ++ b) | _, _ => None end) in H.
  destruct (get_processor d k) as [p|] eqn:G; [|discriminate H]. destruct (list_each (list_below f d) (pr_processors p)) as [l1|] eqn:E1; [|discriminate H]. cbn [option_map] in H.
  destruct (list_each (list_below (S f) d) ks) as [l2|] eqn:E2; [|discriminate H]. injection H as <-. apply (listed_cons d k ks p l1 l2 G (IHF _ _ E1) (IH _ eq_refl)).
Qed.
Fixpoint nodupb (l : list nat) : bool := match l with [] => true | x :: r => negb (existsb (Nat.eqb x) r) && nodupb r end.
Lemma nodupb_spec l : nodupb l = true -> NoDup l.
Proof.
  induction l as [|x r IH]; cbn [nodupb]; intros H; [constructor|]. apply andb_prop in H. destruct H as (A & B). constructor; [|apply IH, B]. intros I'.
  assert (E : existsb (Nat.eqb x) r = true) by (apply existsb_exists; exists x; split; [exact I'|apply Nat.eqb_refl]). rewrite E in A. discriminate.
Qed.
(* the hypotheses of the theorem above, as a test *)
Definition provenance_ok (d : document) : bool :=
  match list_all 9 d (doc_chain d) with
  | Some l => nodupb l && forallb (fun o => match o with Some x => negb (Nat.eqb (length (d_processors x)) 0) && forallb (fun k => existsb (Nat.eqb k) l) (d_processors x) | None => true end) (st_items (doc_decls d))
  | None => false
  end.
Lemma provenance_ok_spec d : provenance_ok d = true -> exists l, listed d (doc_chain d) l /\ NoDup l /\ forall k x, get_declaration d k = Some x -> d_processors x <> [] /\ incl (d_processors x) l.
Proof.
  unfold provenance_ok. destruct (list_all 9 d (doc_chain d)) as [l|] eqn:L; [|discriminate]. intros H. apply andb_prop in H. destruct H as (A & B). exists l. split; [eapply list_all_spec, L|]. split; [apply nodupb_spec, A|].
  intros k x G. rewrite forallb_forall in B. unfold get_declaration, st_get in G. destruct (nth_error (st_items (doc_decls d)) k) as [[y|]|] eqn:N; try discriminate. injection G as ->. apply nth_error_In in N. specialize (B _ N). cbn in B. apply andb_prop in B. destruct B as (B1 & B2). split.
  - intros E. rewrite E in B1. discriminate.
  - intros j J. rewrite forallb_forall in B2. specialize (B2 _ J). apply existsb_exists in B2. destruct B2 as (j' & I' & E). apply Nat.eqb_eq in E. subst. exact I'.
Qed.
(* Dates are written in a form that the parser rejects: such a document cannot be loaded again. *)
Theorem C55_dates_unreadable : forall p d d' l k q,
  reachable anything d -> listed d (doc_chain d) l -> NoDup l ->
  (forall k x, get_declaration d k = Some x -> d_processors x <> [] /\ incl (d_processors x) l) ->
  In k l -> get_processor d k = Some q -> pr_begin q <> None \/ pr_end q <> None -> ~ saved_and_loaded p d d'.
Proof.
  intros p d d' l k q RE LS ND HD IN G DT SL. destruct (saved_parts _ _ _ SL) as (i & fuel & O & fuel' & O' & root & m & b & d1 & d2 & r2 & WM & _ & LD).
  pose proof (ld_root _ _ _ _ _ _ _ _ _ _ LD) as E1.
  destruct (provenance_read i fuel d m d1 (b ++ [wnl; WEnd "FoLiA"]) d2 r2 l RE LS ND HD WM) as (_ & _ & UD & _); try (rewrite E1; reflexivity); [exact (ld_read _ _ _ _ _ _ _ _ _ _ LD)|].
  destruct (UD k q IN G). destruct DT; contradiction.
Qed.
Print Assumptions C55_dates_unreadable.
Definition proc5 : processor := mkProc "proc5" "parser" PT_Auto "" "" "" "" "" "" (Some (mkDT 2021 3 4 12 30 0)) None [] "" "" "" None meta_default None [].
Theorem C55_dated_processor_refuted : exists d k q, reachable normal d /\ In k (doc_chain d) /\ get_processor d k = Some q /\ pr_begin q <> None /\
  (exists fuel O root w, doc_xml fuel O d root = Ok w) /\ forall p d', ~ saved_and_loaded p d d'.
Proof.
  destruct (ex_after [OAddProcessor proc5] (fun d => match get_processor_key_by_id d "proc5" with
      | Some k => match get_processor d k with Some q => (existsb (Nat.eqb k) (doc_chain d) && is_some (pr_begin q)) && (provenance_ok d && match doc_xml fuel1 rt_oracle d 0 with Ok _ => true | _ => false end) | None => false end
      | None => false end)) as (d & R & P); [vm_compute; reflexivity|].
  destruct (get_processor_key_by_id d "proc5") as [k|]; [|discriminate]. destruct (get_processor d k) as [q|] eqn:G; [|discriminate]. apply andb_prop in P. destruct P as (P1 & P2). apply andb_prop in P1. destruct P1 as (P0 & P1). apply andb_prop in P2. destruct P2 as (P2 & P3).
  apply existsb_exists in P0. destruct P0 as (k0 & P0 & E). apply Nat.eqb_eq in E. subst k0. apply is_some_spec in P1. destruct (doc_xml fuel1 rt_oracle d 0) as [w|e| |] eqn:W; try discriminate.
  exists d, k, q. split; [exact R|]. split; [exact P0|]. split; [exact G|]. split; [exact P1|]. split; [eauto 6|].
  intros p d' SL. destruct (provenance_ok_spec d P2) as (l & LS & ND & HD). apply (C55_dates_unreadable p d d' l k q) with (8 := SL); auto.
  - eapply reachable_mono; [exact normal_anything|exact R].
  - clear - LS P0. induction LS as [|a ks p l1 l2 G L1 _ L2 IH]; [destruct P0|]. destruct P0 as [<-|P0]; [left; reflexivity|]. right. apply in_or_app. right. apply IH, P0.
Qed.
Print Assumptions C55_dated_processor_refuted.
Example C55_nonvacuous : exists d d' l, reachable anything d /\ listed d (doc_chain d) l /\ NoDup l /\
  (forall k x, get_declaration d k = Some x -> d_processors x <> [] /\ incl (d_processors x) l) /\ saved_and_loaded no_props d d' /\
  length (doc_chain d) = 2 /\ length l = 3 /\ length (st_items (doc_decls d)) = 5.
Proof.
  assert (X : exists d, reachable anything d /\ (provenance_ok d && Nat.eqb (length (doc_chain d)) 2 && match list_all 9 d (doc_chain d) with Some l => Nat.eqb (length l) 3 | None => false end && Nat.eqb (length (st_items (doc_decls d))) 5 && is_some (round_trip 2 d))%bool = true).
  { exists ex_doc. split; [exact ex_reachable_any|]. vm_compute. reflexivity. }
  destruct X as (d & R & P). repeat match type of P with _ && _ = true => apply andb_prop in P; destruct P as (P & ?) end.
  destruct (round_trip 2 d) as [d'|] eqn:RT; [|discriminate]. destruct (provenance_ok_spec d P) as (l & LS & ND & HD). exists d, d', l. destruct (list_all 9 d (doc_chain d)) as [l'|] eqn:L; [|discriminate].
  assert (E : l = l'). { apply list_all_spec in L. clear - LS L. revert l' L. induction LS as [|k ks p l1 l2 G L1 IH1 L2 IH2]; intros l' L; inversion L as [|? ? p' l1' l2' G' L1' L2']; subst; [reflexivity|]. rewrite G in G'. injection G' as <-. rewrite (IH1 _ L1'), (IH2 _ L2'). reflexivity. }
  subst l'. repeat split; try assumption; try (apply Nat.eqb_eq; assumption); try (apply (HD k x); assumption). eapply round_trip_saved, RT.
Qed.
