(* C66: a saved document loads again. *)
From Coq Require Import String Ascii List Bool Arith NArith Lia.
From Verif Require Import Base BaseFacts Types TypesFacts SpecTable Attrib AttribFacts Element Store StoreFacts Metadata Document Select DocOps Xml Parser Serialiser History Spec
  FrameFacts InvFacts DocFacts Examples StoreThms InternFacts EncodeFacts PropsEncode LinkFacts TreeFacts ForestFacts SelSpec SelectFacts PropsLinks PropsQuery SerSpec PropsSer ParseSpec ParseFacts PropsParse PropsProv
  NoPanic Returns RoundFacts RoundProv RoundSpec RoundTree PropsRound PropsTree WellSpec LoadOk PropsWell SaveSpec SaveOk ClassFacts.
Import ListNotations.
Open Scope string_scope.
Open Scope list_scope.

(* ---------------------------------------------------------------- the tag of an element can be read *)
Lemma reads_forward O t l xs : Forall2 (fun p x => parse_attrib O (fst p) (Some (snd p)) = Ok x) l xs -> reads_attributes O t (map plain_attr l) xs [].
Proof. induction 1 as [|[k v] x l xs P F IH]; cbn [map]; [constructor|]. unfold plain_attr at 1. constructor; [exact P|exact IH]. Qed.
Lemma NoDup_app_intro {A} (a b : list A) : NoDup a -> NoDup b -> (forall x, In x a -> ~ In x b) -> NoDup (a ++ b).
Proof.
  induction a as [|x a IH]; intros NA NB D; [exact NB|]. inversion_clear NA as [|? ? NI NA']. cbn [app]. constructor.
  - intros H. apply in_app_iff in H. destruct H as [H|H]; [contradiction|]. apply (D x); [left; reflexivity|exact H].
  - apply IH; auto. intros y Y. apply D. right. exact Y.
Qed.
Lemma names_injective a b : ab_as_str a = ab_as_str b -> a = b.
Proof. destruct a; intros E; destruct b; try reflexivity; discriminate E. Qed.
Lemma visible_plain d k e : full_ok d -> get_elementdata d k = Some e -> filter visible (e_attribs e) = filter plain_value (e_attribs e).
Proof.
  intros (_ & _ & _ & EO) G. destruct (EO _ _ G) as (p & n & AE & PL & _). cbn in AE. rewrite AE, !filter_app. f_equal.
  - clear AE. induction PL as [|a p (A & B) PL IH]; [reflexivity|]. cbn [filter]. rewrite IH. destruct a; try discriminate A; reflexivity.
  - assert (H : forall a, In a (refs n) -> visible a = plain_value a) by (intros a A; apply refs_decodable in A; destruct a; try discriminate A; reflexivity).
    clear AE. induction (refs n) as [|a l IH]; [reflexivity|]. cbn [filter]. rewrite (H a (or_introl eq_refl)), IH by (intros; apply H; right; assumption). reflexivity.
Qed.
Lemma tag_readable O d k e a t : full_ok d -> get_elementdata d k = Some e -> tag_attributes O d e a -> (forall x, In x (e_attribs e) -> attr_in_range O x) -> NoDup (map attribtype (filter plain_value (e_attribs e))) ->
  exists own, reads_attributes O t (read_attrs [] a) own [].
Proof.
  intros F G T IR ND. pose proof (visible_plain d k e F G) as VP. destruct T as (sh & set & subset & class & proc & -> & FS & M). rewrite <- VP in ND.
  set (opts := opt_list A_Set set ++ opt_list A_Subset subset ++ opt_list A_Class class ++ opt_list A_Processor proc).
  assert (F1 : Forall2 (fun p x => parse_attrib O (fst p) (Some (snd p)) = Ok x) sh (filter visible (e_attribs e)) /\ map fst sh = map (fun x => ab_as_str (attribtype x)) (filter visible (e_attribs e))).
  { assert (IR' : forall x, In x (filter visible (e_attribs e)) -> attr_in_range O x) by (intros x I; apply filter_In in I; apply IR, I). clear - FS IR'.
    induction FS as [|x [n v] l m (N & V) F IH]; [split; [constructor|reflexivity]|]. cbn [fst snd] in N, V. destruct IH as (I1 & I2); [intros y I; apply IR'; right; exact I|].
    split; [constructor; [|exact I1]; cbn [fst snd]; rewrite N; apply attr_round; [apply IR'; left; reflexivity|exact V]|cbn [map fst]; rewrite I2, N; reflexivity]. }
  destruct F1 as (F1 & N1). exists (filter visible (e_attribs e) ++ opts). rewrite read_attrs_plain; [|rewrite map_app, N1|intros ? ? []].
  - apply reads_forward. apply Forall2_app; [exact F1|]. unfold opts, given, opt_list. repeat apply Forall2_app; [destruct set|destruct subset|destruct class|destruct proc]; repeat constructor.
  - assert (NG : NoDup (map fst (given "set" set ++ given "subset" subset ++ given "class" class ++ given "processor" proc)) /\
      forall x, In x (map fst (given "set" set ++ given "subset" subset ++ given "class" class ++ given "processor" proc)) -> In x ["set"; "subset"; "class"; "processor"]).
    { destruct set, subset, class, proc; cbn; (split; [repeat constructor; cbn; intuition discriminate|intuition]). }
    destruct NG as (NG & IG). rewrite <- (map_map attribtype ab_as_str). apply NoDup_app_intro.
    + apply map_NoDup_in; [intros x y _ _; apply names_injective|exact ND].
    + exact NG.
    + intros x X Y. apply IG in Y. apply in_map_iff in X. destruct X as (b & <- & X). apply in_map_iff in X. destruct X as (y & <- & X). rewrite VP in X. apply filter_In in X. destruct X as (_ & X).
      destruct y; try discriminate X; cbn in Y; decompose [or] Y; try contradiction; discriminate.
Qed.

(* ---------------------------------------------------------------- the written nodes are well formed *)
Lemma backward_kept d open ids l ids' : backward d open ids l ids' -> backward d open ids (kept l) ids'.
Proof.
  induction 1 as [open ids|open ids x l ids' NE _ IH|open ids c e l ids1 ids2 G B1 _ R B2 IH]; [constructor| |].
  - unfold kept in *. cbn [filter]. destruct (negb (is_spanref x)); [constructor; assumption|exact IH].
  - unfold kept in *. cbn [filter is_spanref negb]. econstructor; eassumption.
Qed.
Definition sets_of (d : document) : list (AnnotationType * option string) :=
  map (fun a => (a, None)) all_at ++ flat_map (fun o => match o with Some x => [(d_type x, d_set x)] | None => [] end) (st_items (doc_decls d)).
Lemma sets_none d a : In (a, None) (sets_of d).
Proof. apply in_app_iff. left. apply in_map_iff. exists a. split; [reflexivity|apply in_all_at]. Qed.
Lemma sets_declared d k x : get_declaration d k = Some x -> In (d_type x, d_set x) (sets_of d).
Proof.
  intros G. apply in_app_iff. right. apply in_flat_map. exists (Some x). split; [|left; reflexivity]. unfold get_declaration, st_get in G. destruct (nth_error (st_items (doc_decls d)) k) as [o|] eqn:E; [|discriminate]. cbn in G. subst o. eapply nth_error_In, E.
Qed.
Lemma sets_count d : length (sets_of d) <= length all_at + length (st_items (doc_decls d)).
Proof. unfold sets_of. rewrite app_length, map_length. apply Nat.add_le_mono_l. induction (st_items (doc_decls d)) as [|[x|] l IH]; cbn [flat_map length app]; lia. Qed.
Section Well.
Variables (O : oracle) (d : document).
Hypotheses (F : full_ok d) (VR : values_in_range O d) (SA : single_attributes d) (FP : features_placed d).
Lemma own_plain k e a own t : get_elementdata d k = Some e -> tag_attributes O d e a -> reads_attributes O (e_type e) (read_attrs [] a) own [] -> t = e_type e ->
  (forall id, In (A_Id id) own <-> In (A_Id id) (e_attribs e)) /\ (forall id, In (A_Idref id) own <-> In (A_Idref id) (e_attribs e)) /\ unique_types own.
Proof.
  intros G T RA ->. destruct (own_read O d k e a own [] F G T (fun x i => VR _ _ _ G i) RA) as [_ U P _ _ _ _].
  assert (IFF : forall x, other x = true -> plain_value x = true -> (In x own <-> In x (e_attribs e))).
  { intros x A B. split; intros H; [assert (Q : In x (filter other own)) by (apply filter_In; auto); rewrite P in Q; apply filter_In in Q; apply Q|].
    assert (Q : In x (filter plain_value (e_attribs e))) by (apply filter_In; auto). rewrite <- P in Q. apply filter_In in Q. apply Q. }
  split; [intros id; apply IFF; reflexivity|]. split; [intros id; apply IFF; reflexivity|exact U].
Qed.
Lemma attribs_id_in l id : attribs_id l = Some id -> In (A_Id id) l.
Proof. induction l as [|a l IH]; cbn; [discriminate|]. destruct a; intros H; try (right; apply IH, H). injection H as ->. left. reflexivity. Qed.
Lemma own_id_given k e a own id : get_elementdata d k = Some e -> tag_attributes O d e a -> reads_attributes O (e_type e) (read_attrs [] a) own [] -> In id (own_id e) -> gives_id own id.
Proof.
  intros G T RA I'. destruct (own_plain _ _ _ _ _ G T RA eq_refl) as (A & _ & U). unfold own_id in I'. destruct (e_id e) as [x|] eqn:E; [|destruct I']. destruct I' as [<-|[]].
  assert (J : In (A_Id x) own) by (apply A, attribs_id_in, E). split; [exact J|]. intros y Y. clear - U J Y. unfold unique_types in U. induction own as [|b l IH]; [destruct J|]. cbn [map] in U. inversion_clear U as [|? ? NI U'].
  assert (X : forall z, In (A_Id z) l -> In AB_ID (map attribtype l)) by (intros z Z; apply in_map_iff; exists (A_Id z); auto).
  destruct J as [->|J], Y as [Y|Y]; [congruence|destruct (NI (X _ Y))|subst b; destruct (NI (X _ J))|apply (IH U' J Y)].
Qed.
Lemma covered_tag p k e a own : get_elementdata d k = Some e -> tag_attributes O d e a -> reads_attributes O (e_type e) (read_attrs [] a) own [] -> covered (sets_of d) p (e_type e) own [].
Proof.
  intros G T RA. pose proof (own_read O d k e a own [] F G T (fun x i => VR _ _ _ G i) RA) as OR. split; [|split].
  - intros t s AT GS. destruct s as [x|]; [|apply sets_none]. cbn in GS. apply (ow_set _ _ _ _ OR) in GS. destruct GS as (dk & DK & _ & _ & RS).
    destruct F as (_ & _ & _ & EO). destruct (EO _ _ G) as (pl & n & AE & PL & RO). cbn in AE. rewrite (rep_dec e pl n AE PL) in DK. injection DK as DK.
    destruct (ro_dec _ _ _ RO dk DK) as (dec & GD & TY). rewrite <- (TY _ AT). rewrite (rep_set d e pl n AE PL) in RS. rewrite DK in RS. cbn [obind] in RS. rewrite GD in RS. injection RS as RS. rewrite <- RS. eapply sets_declared, GD.
  - intros t s FT AT GS. destruct s as [x|]; [|apply sets_none]. cbn in GS. apply (ow_set _ _ _ _ OR) in GS. destruct GS as (dk & _ & _ & NF & _). contradiction.
  - intros t NE. contradiction NE. reflexivity.
Qed.
Lemma nodes_well l ns ks : nodes_of O d l ns ks -> forall p open ids ids', backward d (p :: open) ids l ids' ->
  (forall c f, In (DElement c) l -> get_elementdata d c = Some f -> e_type f = ET_Feature -> et_annotationtype p <> None) -> well_formed O (sets_of d) p open ids ns ids' (length ks).
Proof.
  induction 1 as [|s l ns ks B N IH|s l ns ks B N IH|s l ns ks B N IH|c e a inside l ns ks1 ks G T N1 IH1 N2 IH2]; intros p open ids ids' BW PL.
  - inversion BW; subst. constructor.
  - constructor. apply IH; assumption.
  - inversion BW; subst. constructor. apply IH; [assumption|]. intros c f I'. apply PL. right. exact I'.
  - inversion BW; subst. constructor. apply IH; [assumption|]. intros c f I'. apply PL. right. exact I'.
  - inversion BW as [|? ? ? ? ? NE|? ? ? e' ? ids1 ? G' B1 R B2]; subst; [destruct (NE c eq_refl)|]. rewrite G in G'. injection G' as <-.
    destruct (tag_readable O d c e a (e_type e) F G T (fun x i => VR _ _ _ G i) (SA _ _ G)) as (own & RA). destruct (own_plain _ _ _ _ _ G T RA eq_refl) as (_ & IR & _).
    cbn [length]. rewrite app_length. change (S (length ks1 + length ks)) with (S (@length (string * string) []) + length ks1 + length ks).
    eapply (wf_element _ _ _ _ _ _ _ _ _ (e_type e) own [] (own_id e)); [apply et_from_as|exact RA| |eapply covered_tag; eassumption|intros id I'; eapply own_id_given; eassumption| | |].
    + intros FT. apply (PL c e); [left; reflexivity|exact G|exact FT].
    + apply IH1; [apply backward_kept, B1|]. intros c' f I'. unfold kept in I'. apply filter_In in I'. eapply FP; [exact G|apply I'].
    + intros WR. destruct (R WR) as ((id & I1) & I2 & I3). split; [exists id; apply IR, I1|]. split; [intros j J; apply I2, IR, J|exact I3].
    + apply IH2; [exact B2|]. intros c' f I'. apply PL. right. exact I'.
Qed.
End Well.

(* ---------------------------------------------------------------- counting *)
Lemma keys_count {A} (s : store A) ks : NoDup ks -> (forall k, In k ks -> st_get s k <> None) -> length ks <= length (st_items s).
Proof.
  intros ND H. rewrite <- (seq_length (length (st_items s)) 0). apply NoDup_incl_length; [exact ND|]. intros k I'. apply in_seq. split; [lia|]. cbn. specialize (H k I').
  unfold st_get in H. apply nth_error_Some. destruct (nth_error (st_items s) k); congruence.
Qed.
Lemma nodes_present O d l ns ks : nodes_of O d l ns ks -> forall k, In k ks -> get_elementdata d k <> None.
Proof.
  induction 1 as [|s l ns ks B N IH|s l ns ks B N IH|s l ns ks B N IH|c e a inside l ns ks1 ks G T N1 IH1 N2 IH2]; intros k I'; try (apply IH, I'); [destruct I'|].
  destruct I' as [<-|I']; [congruence|]. apply in_app_iff in I'. destruct I'; auto.
Qed.
Lemma listed_present d ks l : listed d ks l -> forall k, In k l -> exists p, get_processor d k = Some p.
Proof. induction 1 as [|k ks p l1 l2 G _ IH1 _ IH2]; intros j I'; [destruct I'|]. destruct I' as [<-|I']; [eauto|]. apply in_app_iff in I'. destruct I'; auto. Qed.
Lemma listed_ids d l : reachable anything d -> NoDup l -> (forall k, In k l -> exists p, get_processor d k = Some p) -> NoDup (map (pid d) l).
Proof.
  intros R ND GL. apply map_NoDup_in; [|exact ND]. intros a b A B E. destruct (GL a A) as (pa & GA). destruct (GL b B) as (pb & GB). unfold pid in E. rewrite GA, GB in E.
  assert (X : get_processor_key_by_id d (pr_id pa) = Some a) by (apply get_by_id_processor; [exact R|]; exists pa; auto).
  assert (Y : get_processor_key_by_id d (pr_id pa) = Some b) by (apply get_by_id_processor; [exact R|]; exists pb; auto). congruence.
Qed.

(* ---------------------------------------------------------------- loading, forwards *)
Lemma body_forward O gap t attrs rest own feats : (forall ev, In ev gap -> ~ starts ev) -> ~ In EvError gap -> t = ET_Text \/ t = ET_Speech -> reads_attributes O t attrs own feats ->
  parse_body O (gap ++ EvStart NsFolia (et_as_str t) attrs :: rest) = Ok (Some (mkElem t own [] None None), rest).
Proof.
  intros N E T RA. induction gap as [|ev l IH]; cbn [app parse_body].
  - destruct T as [-> | ->]; cbn; rewrite (reads_parse _ _ _ _ _ RA); reflexivity.
  - assert (I' : parse_body O (l ++ EvStart NsFolia (et_as_str t) attrs :: rest) = Ok (Some (mkElem t own [] None None), rest)) by (apply IH; [intros y Y; apply N; right; exact Y|intros Q; apply E; right; exact Q]).
    destruct ev; try exact I'; [exfalso; apply (N _ (or_introl eq_refl)); eexists _, _, _; reflexivity|exfalso; apply E; left; reflexivity].
Qed.

(* What a file is loaded with: no processor, and not very many declarations (by default it is one, of the default text set). *)
Definition plain_properties (p : docprops) : Prop := dp_processor p = None /\ (N.of_nat (length (dp_declare p)) <= 1000)%N.
Lemma default_properties : plain_properties dp_default.
Proof. split; [reflexivity|]. cbn. lia. Qed.

(* ================================================================ C66 *)
(* Saving succeeds, and what it writes can be loaded and has the same tree (see C54 for what this says). Missing for the
   full claim: what the hypotheses rule out. Each of them is needed, see the documents below and in C54 and C55. *)
Theorem C66_saved_loads_partial : forall O p d root e lst ids' indent, tidy d -> get_elementdata d root = Some e -> (e_parent e <> None \/ root = 0) ->
  e_type e = ET_Text \/ e_type e = ET_Speech -> e_data e <> [] ->
  writable_doc d -> values_in_range O d -> single_attributes d -> features_placed d -> backward d [e_type e] (own_id e) (e_data e) ids' ->
  listed d (doc_chain d) lst -> NoDup lst -> undated d lst ->
  (N.of_nat (length (st_items (doc_decls d))) <= 32000)%N -> plain_properties p ->
  exists m w d', (forall fuel, m <= fuel -> doc_xml fuel O d root = Ok w /\ parse_document fuel O p (reread indent w) = Ok d') /\
    exists n, same_tree (same_attributes d d') d d' None root 0 n /\ length (st_items (doc_elements d')) = n.
Proof.
  intros O p d root e lst ids' indent T G PA BT NE WD VR SA FP BW LS ND UD RD (P1 & P2).
  pose proof (tidy_reachable _ T) as RN. pose proof (normal_any _ RN) as RA0. assert (F : full_ok d) by apply reachable_full, RN.
  destruct (C52_xml_is_tree_partial O d root e T G PA) as (body & X & _ & n1 & FX). assert (DP : forall k x q, get_declaration d k = Some x -> In q (d_processors x) -> get_processor d q <> None).
  { intros k x q GD I'. destruct F as (_ & _ & PO & _). destruct (po_decl _ PO k x q GD I') as (y & Y). congruence. }
  destruct (w_metadata_ok d lst LS DP) as (n2 & mt & FM).
  set (w := WStart "FoLiA" [("xmlns", NSFOLIA); ("xmlns:xlink", NSXLINK); ("xml:id", doc_id d); ("version", FOLIAVERSION); ("generator", GENERATOR)] :: wnl :: mt ++ body ++ [wnl; WEnd "FoLiA"]).
  assert (W : forall fuel, n1 + n2 <= fuel -> doc_xml fuel O d root = Ok w).
  { intros fuel L. unfold doc_xml. rewrite (FM fuel) by lia. cbn [rbind]. unfold element_xml in FX. rewrite (FX fuel) by lia. reflexivity. }
  assert (MT : w_metadata n2 d = Ok mt) by (apply FM; lia).
  (* the frame *)
  set (d1 := doc_with_version (doc_with_id (blank_doc p) (doc_id d)) FOLIAVERSION).
  pose proof (listed_ids d lst RA0 ND (listed_present _ _ _ LS)) as NI.
  assert (B1 : (N.of_nat (length lst) <= max_proc + 1)%N).
  { assert (Q : length lst <= length (st_items (doc_procs d))) by (apply keys_count; [exact ND|]; intros k K; destruct (listed_present _ _ _ LS k K) as (q & Q); unfold get_processor in Q; congruence).
    destruct F as ((_ & _ & _ & PB & _) & _). unfold st_bounded, st_len in PB. lia. }
  assert (B2 : (N.of_nat (length (st_items (doc_decls d))) <= max_dec + 1)%N) by (change (max_dec + 1)%N with 65536%N; lia).
  destruct (metadata_goes indent n2 d mt lst d1 (body ++ [wnl; WEnd "FoLiA"]) 1 ("" ++ nl) false (ms_text ms_init) LS UD NI B1 B2 MT eq_refl eq_refl) as (d2 & dep & MG & LD2). rewrite put_same in MG.
  (* the body *)
  inversion X as [f k0 e0 a G0 D0 TA EF EK EB|f k0 e0 a body0 G0 D0 TA XC EF EK EB]; subst; assert (e0 = e) by congruence; subst e0; [contradiction|].
  destruct (full_read indent O d WD true root e a body0 [wnl; WEnd "FoLiA"] dep nl false G TA (proj2 (written_read indent O d WD) _ _ _ XC)) as (inside & ev & ks & acc & brk & E & XE & NO & _).
  set (after := rd indent dep acc brk [wnl; WEnd "FoLiA"]) in *.
  destruct (tag_readable O d root e a (e_type e) F G TA (fun x i => VR _ _ _ G i) (SA _ _ G)) as (own & RT).
  pose proof (C18_links_agree_partial d T) as CO. assert (AC : acyclic d) by (intros j; apply C21_forest_partial, T).
  pose proof (nodes_nodup _ _ _ _ _ _ CO AC G NO) as NDK.
  assert (XI : NoDup (tag_ids (read_attrs [] a) ++ xml_ids (ev ++ EvEnd NsFolia (et_as_str (e_type e)) :: after))).
  { destruct (node_ids _ _ _ _ _ NO _ XE) as (ids & EI & FI). subst after. unfold wnl. rewrite xml_ids_app, xml_ids_cons. cbn [app]. rewrite rd_text, rd_end, rd_nil, xml_ids_app, xml_ids_cons, !flush_no_ids. cbn [app]. rewrite app_nil_r, EI. pose proof (tag_id _ _ _ _ TA) as TI.
    destruct (ids_distinct d (root :: ks) (tag_ids (read_attrs [] a) :: ids) RA0 NDK) as (Q & _); [constructor; [exists e; auto|exact FI]|exact Q]. }
  assert (GP : props_ok normal p) by (intros pr Q; rewrite P1 in Q; discriminate).
  assert (FU : prims0 normal (doc_empty "untitled" (dp_autodeclare p)) d2).
  { assert (FU1 : prims0 normal (doc_empty "untitled" (dp_autodeclare p)) d1) by (apply (root_attrs_p0 normal [Some (mkXA "xml:id" (Some (doc_id d))); Some (mkXA "version" (Some FOLIAVERSION))] (blank_doc p)); reflexivity).
    pose proof (parse_metadata_p0 normal (go_decl _ normal_ok) (fun p0 l0 H => parse_processor_fresh _ _ H) (rd indent 1 ("" ++ nl) false (mt ++ (WStart (et_as_str (e_type e)) a :: after_start (e_type e) ++ body0 ++ WEnd (et_as_str (e_type e)) :: after_end true (e_type e)) ++ [wnl; WEnd "FoLiA"])) d1 ms_init) as FU2.
    rewrite MG in FU2. exact (rtc_trans _ _ _ _ FU1 FU2). }
  assert (F2 : full_ok d2) by (eapply full_prims0; [exact FU|apply full_empty]).
  pose proof (prims0_len _ _ _ FU) as (L0 & _). cbn in L0.
  pose proof (reads_parse _ _ _ _ _ RT) as PT. destruct (parse_attributes_spec _ _ _ _ PT) as (TX & _). cbn [fst] in TX.
  set (sets := sets_of d ++ dp_declare p).
  assert (AF : affordable sets d2).
  { exists sets. split; [intros; right; assumption|]. pose proof (sets_count d) as C. change (length all_at) with 58 in C. unfold sets. rewrite app_length. unfold st_len. change (max_dec + 1)%N with 65536%N. lia. }
  assert (WN : wanted sets d2 (mkElem (e_type e) own [] None None) None).
  { destruct (covered_tag O d F VR (e_type e) root e a own G TA RT) as (C1 & _). split; cbn [e_type e_attribs]; [intros t A; apply in_or_app; left; apply C1; [exact A|apply first_set]|]. intros Q. exfalso. destruct BT as [B|B]; rewrite B in Q; discriminate. }
  pose proof (fine_store sets d2 (mkElem (e_type e) own [] None None) None F2 TX AF WN ltac:(rewrite L0; cbn; lia)) as FS.
  assert (NP : snd (store_add d2 (mkElem (e_type e) own [] None None) None) <> Panic).
  { unfold store_add. apply sbind_np; [destruct (e_encodable _); [apply encode_np; [exact TX|apply feature_fits_none]|discriminate]|]. intros d0 e1 _. unfold st_add. destruct (st_get_key _ _ _); cbn [snd]; [discriminate|]. destruct (_ <=? _)%N; discriminate. }
  pose proof (store_add_nf d2 (mkElem (e_type e) own [] None None) None) as NF.
  destruct (store_add d2 (mkElem (e_type e) own [] None None) None) as [d3 r] eqn:ST. destruct r as [k|x| |]; [|exfalso; apply (proj1 FS x); reflexivity|contradiction NP; reflexivity|contradiction NF; reflexivity].
  assert (F3 : full_ok d3) by (pose proof (store_add_prims normal d2 (mkElem (e_type e) own [] None None) None TX) as Q; rewrite ST in Q; eapply full_prims; [exact Q|exact F2]).
  assert (C3 : classes_le 0 d3).
  { eapply classes_same; [|eapply (parse_metadata_classes 0); [exact MG|]; intros j y J; unfold get_declaration in J; destruct j; discriminate].
    pose proof (store_kept d2 (mkElem (e_type e) own [] None None) None) as Q. rewrite ST in Q. apply Q; cbn [e_type]; destruct BT as [B|B]; rewrite B; solve [reflexivity|discriminate]. }
  destruct (declares_ok (dp_declare p) sets 0 d3 F3 (proj2 FS) ltac:(apply incl_appr, incl_refl) C3 ltac:(change u32_max with 4294967295%N; lia)) as (d4 & AD & AF4).
  assert (AP : apply_properties d3 p = (d4, Ok tt)) by (unfold apply_properties; rewrite P1; exact AD).
  destruct (body_stored p (read_attrs [] a) (ev ++ EvEnd NsFolia (et_as_str (e_type e)) :: after) O (e_type e) _ d2 d3 d4 k GP FU XI PT ST AP) as (-> & _ & _ & F4 & _ & EL & S4 & L4 & PI & _ & N2 & _). cbn [fst] in N2.
  pose proof (nodes_well O d F VR SA FP _ _ _ NO (e_type e) [] (own_id e) ids' (backward_kept _ _ _ _ _ BW)) as WF.
  assert (WF' : well_formed O (sets_of d) (e_type e) [] (own_id e) inside ids' (length ks)).
  { apply WF. intros c f I'. unfold kept in I'. apply filter_In in I'. eapply FP; [exact G|apply I']. }
  assert (L : LoadOk.loading (sets_of d) d4 [0] [e_type e] (own_id e) (ev ++ EvEnd NsFolia (et_as_str (e_type e)) :: after)).
  { split; [exact F4|exact PI| | |destruct AF4 as (todo & H4 & N4); exists todo; split; [intros a0 s0 I'; apply H4, in_or_app; left; exact I'|exact N4]].
    - constructor; [|constructor]. unfold sh in S4. destruct (get_elementdata d4 0) as [y|] eqn:GY; [|discriminate]. exists y. split; [exact GY|]. injection S4 as S4 _ _. exact S4.
    - intros id I'. unfold has_id, get_element_key_by_id in *. rewrite EL. change (has_id d3 id). eapply store_has_id; [exact N2|exact ST|]. apply gives_id_first. apply (own_id_given O d F VR root e a own id G TA RT I'). }
  destruct (content_loads O (sets_of d) inside ev XE _ _ _ _ _ WF' d4 0 [] _ L) as (d5 & (m & LE) & _).
  { rewrite L4. assert (Q : length (root :: ks) <= length (st_items (doc_elements d))).
    { apply keys_count; [exact NDK|]. intros j [<-|J]; [unfold get_elementdata in G; congruence|apply (nodes_present _ _ _ _ _ NO j J)]. }
    destruct F as (((_ & EB') & _) & _). unfold st_bounded, st_len in EB'. cbn [length] in Q. lia. }
  assert (FIN : forall fuel, m + n1 + n2 <= fuel -> doc_xml fuel O d root = Ok w /\ parse_document fuel O p (reread indent w) = Ok d5);
    [|exists (m + n1 + n2), w, d5; split; [exact FIN|]; destruct (FIN (m + n1 + n2) (le_n _)) as (A1 & A2); exact (C54_tree_round_trip_partial _ _ O p d root e w indent d5 T G PA WD VR GP A1 A2)].
  intros fuel LF. split; [apply W; lia|].
  unfold parse_document, w, reread. change (w_read "" (w_indent indent 0 false ?l)) with (rd indent 0 "" false l). rewrite rd_start. unfold lead. cbn [andb append flush str_is_empty app parse_root].
  cbn [String.eqb Ascii.eqb Bool.eqb read_attrs existsb orb root_attrs xa_key xa_val expect rbind]. unfold wnl at 1. rewrite rd_text.
  match goal with |- context [parse_metadata ?x ms_init _] => change x with d1 end.
  cbn [append] in MG. cbn [app] in MG. cbn [append]. rewrite MG. cbn [rbind]. unfold wnl at 1. rewrite rd_text. cbn [append]. repeat (cbn [app]; rewrite <- !app_assoc). cbn [app]. rewrite E.
  rewrite (body_forward O _ (e_type e) (read_attrs [] a) _ own []); [|intros y; apply flush_no_start|unfold flush; destruct (str_is_empty _); cbn; intuition discriminate|exact BT|exact RT].
  cbn [rbind]. rewrite ST. cbn [map_err sbind]. rewrite AP. cbn [map_err sbind]. fold after. unfold parse_elements. unfold sh_len, st_len in L4. destruct (st_items (doc_elements d4)); [discriminate L4|]. rewrite (LE fuel) by lia. reflexivity.
Qed.
Print Assumptions C66_saved_loads_partial.

(* ---------------------------------------------------------------- an example *)
(* tests for the hypotheses *)
Fixpoint nodup_types (l : list AttribType) : bool := match l with [] => true | x :: r => negb (existsb (ab_eqb x) r) && nodup_types r end.
Definition refersb (open : list ElementType) (ids : list string) (own : list Attribute) : bool :=
  existsb (fun a => match a with A_Idref _ => true | _ => false end) own &&
  forallb (fun a => match a with A_Idref id => existsb (String.eqb id) ids | _ => true end) own && existsb (fun t => existsb (et_eqb t) (group_elementtypes EG_Span)) open.
Definition back_each (back : list ElementType -> list string -> elementdata -> option (list string)) (d : document) (open : list ElementType) : list string -> list datatype -> option (list string) :=
  fix each ids l := match l with
    | [] => Some ids
    | DElement c :: r => match get_elementdata d c with
        | Some e => match back open ids e with
            | Some ids1 => if negb (et_eqb (e_type e) ET_WordReference) || refersb open ids1 (e_attribs e) then each ids1 r else None
            | None => None end
        | None => None end
    | _ :: r => each ids r
    end.
Fixpoint back_element (fuel : nat) (d : document) (open : list ElementType) (ids : list string) (e : elementdata) : option (list string) :=
  match fuel with
  | 0 => None
  | S f => back_each (back_element f d) d (e_type e :: open) (own_id e ++ ids) (e_data e)
  end.
Lemma refersb_spec open ids own : refersb open ids own = true -> refers open ids own.
Proof.
  unfold refersb. intros H. apply andb_prop in H. destruct H as (H & C). apply andb_prop in H. destruct H as (A & B). split; [|split].
  - apply existsb_exists in A. destruct A as (a & I' & E). destruct a; try discriminate. eauto.
  - intros id I'. rewrite forallb_forall in B. specialize (B _ I'). cbn in B. apply existsb_exists in B. destruct B as (x & X & E). apply String.eqb_eq in E. subst. exact X.
  - apply existsb_exists in C. destruct C as (t & I' & E). apply existsb_exists in E. destruct E as (u & J & E). destruct (et_eqb_spec t u) as [->|]; [|discriminate]. eauto.
Qed.
Lemma back_element_spec fuel d : forall open ids e ids', back_element fuel d open ids e = Some ids' -> backward d (e_type e :: open) (own_id e ++ ids) (e_data e) ids'.
Proof.
  induction fuel as [|f IH]; intros open ids e ids' H; [discriminate|]. cbn [back_element] in H. revert H. generalize (e_type e :: open) (own_id e ++ ids) (e_data e). clear - IH.
  intros open ids l. revert ids. induction l as [|x l IHl]; intros ids H; [injection H as <-; constructor|].
  destruct x as [s|c|s|s|s]; try (constructor; [discriminate|apply IHl, H]). cbn in H. destruct (get_elementdata d c) as [y|] eqn:G; [|discriminate].
  destruct (back_element f d open ids y) as [ids1|] eqn:B; [|discriminate]. destruct (et_eqb_spec (e_type y) ET_WordReference) as [WR|NW]; cbn [negb orb] in H.
  - destruct (refersb open ids1 (e_attribs y)) eqn:R; [|discriminate]. eapply back_child; [exact G|apply IH, B|intros _; apply refersb_spec, R|apply IHl, H].
  - eapply back_child; [exact G|apply IH, B|intros Q; contradiction|apply IHl, H].
Qed.
Lemma nodup_types_spec l : nodup_types l = true -> NoDup l.
Proof.
  induction l as [|x l IH]; cbn [nodup_types]; intros H; [constructor|]. apply andb_prop in H. destruct H as (A & B). constructor; [|apply IH, B]. intros I'.
  apply negb_true_iff in A. apply not_true_iff_false in A. apply A. apply existsb_exists. exists x. split; [exact I'|]. destruct x; reflexivity.
Qed.
Definition placedb (d : document) : bool := all_elements d (fun e => is_some (et_annotationtype (e_type e)) ||
  forallb (fun x => match x with DElement c => match get_elementdata d c with Some f => negb (et_eqb (e_type f) ET_Feature) | None => true end | _ => true end) (e_data e)).
Lemma placedb_spec d : placedb d = true -> features_placed d.
Proof.
  intros H k e c f G I' GC TY. pose proof (all_elements_spec _ _ H _ _ G) as Q. cbn beta in Q. destruct (et_annotationtype (e_type e)); [discriminate|]. cbn [is_some orb] in Q.
  rewrite forallb_forall in Q. specialize (Q _ I'). cbn in Q. rewrite GC, TY in Q. discriminate.
Qed.
Definition undatedb (d : document) (l : list nat) : bool := forallb (fun k => match get_processor d k with Some p => negb (is_some (pr_begin p)) && negb (is_some (pr_end p)) | None => true end) l.
Lemma undatedb_spec d l : undatedb d l = true -> undated d l.
Proof.
  unfold undatedb. rewrite forallb_forall. intros H k p I' G. specialize (H _ I'). rewrite G in H. apply andb_prop in H. destruct H as (A & B). destruct (pr_begin p), (pr_end p); try discriminate. auto.
Qed.
Definition saveable (d : document) : bool :=
  match get_elementdata d 0, list_all 9 d (doc_chain d) with
  | Some e, Some l => et_eqb (e_type e) ET_Text && negb (Nat.eqb (length (e_data e)) 0) && all_elements d (fun e => writableb d (text_first (e_type e)) (e_data e)) &&
      all_elements d (fun e => forallb (in_rangeb rt_oracle) (e_attribs e)) && all_elements d (fun e => nodup_types (map attribtype (filter plain_value (e_attribs e)))) && placedb d &&
      is_some (back_element 20 d [] [] e) && nodupb l && undatedb d l && N.leb (N.of_nat (length (st_items (doc_decls d)))) 32000
  | _, _ => false
  end.
Lemma saveable_spec d : saveable d = true -> exists e lst ids', get_elementdata d 0 = Some e /\ e_type e = ET_Text /\ e_data e <> [] /\ writable_doc d /\ values_in_range rt_oracle d /\
  single_attributes d /\ features_placed d /\ backward d [e_type e] (own_id e) (e_data e) ids' /\ listed d (doc_chain d) lst /\ NoDup lst /\ undated d lst /\
  (N.of_nat (length (st_items (doc_decls d))) <= 32000)%N.
Proof.
  unfold saveable. intros H. destruct (get_elementdata d 0) as [e|] eqn:G; [|discriminate]. destruct (list_all 9 d (doc_chain d)) as [l|] eqn:LA; [|discriminate].
  apply andb_prop in H. destruct H as (H & H10). apply andb_prop in H. destruct H as (H & H9). apply andb_prop in H. destruct H as (H & H8). apply andb_prop in H. destruct H as (H & H7). apply andb_prop in H. destruct H as (H & H6).
  apply andb_prop in H. destruct H as (H & H5). apply andb_prop in H. destruct H as (H & H4). apply andb_prop in H. destruct H as (H & H3). apply andb_prop in H. destruct H as (H1 & H2).
  destruct (back_element 20 d [] [] e) as [ids'|] eqn:B; [|discriminate].
  exists e, l, ids'. split; [reflexivity|]. split; [destruct (et_eqb_spec (e_type e) ET_Text); congruence|]. split; [intros E; rewrite E in H2; discriminate H2|].
  split; [intros k x GX; apply writableb_spec, (all_elements_spec _ _ H3 _ _ GX)|].
  split; [intros k x a GX I'; pose proof (all_elements_spec _ _ H4 _ _ GX) as Q; cbn beta in Q; rewrite forallb_forall in Q; apply in_rangeb_spec, Q, I'|].
  split; [intros k x GX; apply nodup_types_spec, (all_elements_spec _ _ H5 _ _ GX)|]. split; [apply placedb_spec, H6|]. split; [apply back_element_spec in B; rewrite app_nil_r in B; exact B|].
  split; [eapply list_all_spec, LA|]. split; [apply nodupb_spec, H8|]. split; [apply undatedb_spec, H9|apply N.leb_le, H10].
Qed.
Lemma careful_case ops (P : document -> bool) : match exec_careful fuel1 ex_doc ops with Some d => P d | None => false end = true -> exists d, tidy d /\ P d = true.
Proof. destruct (exec_careful fuel1 ex_doc ops) as [d|] eqn:E; [|discriminate]. intros H. exists d. split; [eapply exec_tidy; [exact ex_tidy|exact E]|exact H]. Qed.
(* the example document with a word that has a comment and a feature added *)
Example C66_nonvacuous : exists d e lst ids', tidy d /\ get_elementdata d 0 = Some e /\ e_type e = ET_Text /\ e_data e <> [] /\ writable_doc d /\ values_in_range rt_oracle d /\
  single_attributes d /\ features_placed d /\ backward d [e_type e] (own_id e) (e_data e) ids' /\ listed d (doc_chain d) lst /\ NoDup lst /\ undated d lst /\
  (N.of_nat (length (st_items (doc_decls d))) <= 32000)%N /\ plain_properties dp_default /\
  length (st_items (doc_elements d)) = 20 /\ exists k w, get_elementdata d k = Some w /\ e_type w = ET_WordReference.
Proof.
  destruct (careful_case [OAddElementTo 10 (mkElem ET_Word [A_Id "w.4"; A_Class "PUNCT"; A_Space true] [DComment " a full stop "; DAddElement (mkElem ET_TextContent [] [DText "."] None None)] None None);
      OAddElementTo 18 (mkElem ET_Feature [A_Subset "kind"; A_Class "full"] [] None None)]
    (fun d => saveable d && Nat.eqb (length (st_items (doc_elements d))) 20 && match get_elementdata d 13 with Some w => et_eqb (e_type w) ET_WordReference | None => false end)) as (d & T & P); [vm_compute; reflexivity|].
  apply andb_prop in P. destruct P as (P & P3). apply andb_prop in P. destruct P as (P1 & P2). destruct (saveable_spec d P1) as (e & l & ids' & A1 & A2 & A3 & A4 & A5 & A6 & A7 & A8 & A9 & A10 & A11 & A12).
  exists d, e, l, ids'. repeat (split; [assumption|]). split; [exact default_properties|]. split; [apply Nat.eqb_eq, P2|].
  destruct (get_elementdata d 13) as [w|] eqn:GW; [|discriminate]. exists 13, w. split; [exact GW|]. destruct (et_eqb_spec (e_type w) ET_WordReference); congruence.
Qed.

(* ---------------------------------------------------------------- what the hypotheses rule out *)
(* An empty body is written as an empty tag, and a document with an empty body tag is rejected: a new document to which
   nothing was added cannot be loaded again after saving. *)
Theorem C66_empty_body_refuted : exists d e w, tidy d /\ get_elementdata d 0 = Some e /\ e_data e = [] /\ doc_xml fuel1 rt_oracle d 0 = Ok w /\ In (WEmpty "text" []) w /\
  forall fuel, parse_document fuel rt_oracle no_props (reread 2 w) = Err EParse.
Proof.
  exists (fst (doc_new "empty" no_props)). eexists _, _. split; [apply (tidy_new "empty" no_props); [exact no_props_ok|vm_compute; reflexivity]|]. split; [vm_compute; reflexivity|]. split; [reflexivity|].
  split; [vm_compute; reflexivity|]. split; [cbn; auto 20|]. intros fuel. vm_compute. reflexivity.
Qed.
Print Assumptions C66_empty_body_refuted.
(* An element with two values for one attribute is written with both, which is not well-formed XML; loading panics. *)
Definition load_panics (d : document) : bool :=
  match doc_xml fuel1 rt_oracle d 0 with Ok w => match parse_document fuel1 rt_oracle no_props (reread 2 w) with Panic => true | _ => false end | _ => false end.
Lemma load_panics_spec d : load_panics d = true -> exists w, doc_xml fuel1 rt_oracle d 0 = Ok w /\ parse_document fuel1 rt_oracle no_props (reread 2 w) = Panic.
Proof. unfold load_panics. destruct (doc_xml fuel1 rt_oracle d 0) as [w| | |]; try discriminate. destruct (parse_document fuel1 rt_oracle no_props (reread 2 w)) eqn:E; try discriminate. eauto. Qed.
Definition has_n (v : string) (a : Attribute) : bool := match a with A_N x => String.eqb x v | _ => false end.
Lemma has_n_spec v l : existsb (has_n v) l = true -> In (A_N v) l.
Proof. intros H. apply existsb_exists in H. destruct H as (a & I' & E). destruct a; try discriminate. apply String.eqb_eq in E. subst. exact I'. Qed.
Theorem C66_double_attribute_refuted : exists d k e w, tidy d /\ get_elementdata d k = Some e /\ In (A_N "1") (e_attribs e) /\ In (A_N "2") (e_attribs e) /\ doc_xml fuel1 rt_oracle d 0 = Ok w /\
  parse_document fuel1 rt_oracle no_props (reread 2 w) = Panic.
Proof.
  destruct (careful_case [OAddElementTo 10 (mkElem ET_Word [A_Id "w.4"; A_N "1"; A_N "2"] [] None None)]
    (fun d => load_panics d && match get_elementdata d 17 with Some e => existsb (has_n "1") (e_attribs e) && existsb (has_n "2") (e_attribs e) | None => false end)) as (d & T & P); [vm_compute; reflexivity|].
  apply andb_prop in P. destruct P as (P & Q). destruct (load_panics_spec d P) as (w & W & L). destruct (get_elementdata d 17) as [e|] eqn:G; [|discriminate].
  exists d, 17, e, w. split; [exact T|]. split; [exact G|]. apply andb_prop in Q. destruct Q as (Q1 & Q2). split; [apply has_n_spec, Q1|]. split; [apply has_n_spec, Q2|]. auto.
Qed.
Print Assumptions C66_double_attribute_refuted.
(* A feature moved to an element without annotation type is written; loading panics. *)
Fixpoint not_above (fuel : nat) (d : document) (a k : nat) : bool :=
  match fuel with 0 => false | S f => match parent_of d k with None => true | Some b => negb (Nat.eqb b a) && not_above f d a b end end.
Lemma not_above_spec fuel d a : forall k, not_above fuel d a k = true -> ~ ancestor d a k.
Proof.
  induction fuel as [|f IH]; intros k H A; [discriminate|]. cbn [not_above] in H. destruct A as [k P|k b P A]; rewrite P in H; apply andb_prop in H; destruct H as (H1 & H2).
  - rewrite Nat.eqb_refl in H1. discriminate.
  - apply (IH b H2 A).
Qed.
Theorem C66_feature_place_refuted : exists d w k e f, tidy d /\ get_elementdata d k = Some e /\ In (DElement f) (e_data e) /\ option_map e_type (get_elementdata d f) = Some ET_Feature /\
  et_annotationtype (e_type e) = None /\ doc_xml fuel1 rt_oracle d 0 = Ok w /\ parse_document fuel1 rt_oracle no_props (reread 2 w) = Panic.
Proof.
  destruct (careful_case [OAddElementTo 3 (mkElem ET_Feature [A_Subset "kind"; A_Class "full"] [] None None); ODetach 17]
    (fun d => not_above 9 d 17 13 && match attach_element d 13 17 with
       | (d1, Ok _) => load_panics d1 && match get_elementdata d1 13, get_elementdata d1 17 with Some e, Some f => existsb (fun x => match x with DElement k => Nat.eqb k 17 | _ => false end) (e_data e) && et_eqb (e_type f) ET_Feature && negb (is_some (et_annotationtype (e_type e))) | _, _ => false end
       | _ => false end)) as (d & T & P); [vm_compute; reflexivity|].
  apply andb_prop in P. destruct P as (P1 & P). destruct (attach_element d 13 17) as [d1 [u|x| |]] eqn:A; try discriminate. apply andb_prop in P. destruct P as (P & Q). destruct (load_panics_spec d1 P) as (w & W & L).
  destruct (get_elementdata d1 13) as [e|] eqn:G; [|discriminate]. destruct (get_elementdata d1 17) as [f|] eqn:GF; [|discriminate]. apply andb_prop in Q. destruct Q as (Q & Q3). apply andb_prop in Q. destruct Q as (Q1 & Q2).
  exists d1, w, 13, e, 17. split.
  - eapply (tidy_step d (OAttach 13 17)); [exact T|]. split; [exact I|]. split; [split; [discriminate|apply (not_above_spec 9), P1]|]. exists 0, (Ok u). split; [exact A|]. split; [exact I|intros []].
  - split; [exact G|]. split; [apply existsb_exists in Q1; destruct Q1 as (x & I' & E); destruct x; try discriminate; apply Nat.eqb_eq in E; subst; exact I'|].
    rewrite GF. cbn [option_map]. split; [destruct (et_eqb_spec (e_type f) ET_Feature) as [-> |]; [reflexivity|discriminate]|]. split; [destruct (et_annotationtype (e_type e)); [discriminate|reflexivity]|]. auto.
Qed.
Print Assumptions C66_feature_place_refuted.
