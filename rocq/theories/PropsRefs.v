(* Properties C54 and C55, continued: sets and processors of the elements, and the declarations, after saving and loading. *)
From Coq Require Import String List Bool Arith NArith Lia.
From Verif Require Import Base BaseFacts Types TypesFacts SpecTable Attrib AttribFacts Element Store StoreFacts Metadata Document Select DocOps Xml Parser Serialiser History Spec
  FrameFacts InvFacts DocFacts Examples StoreThms InternFacts EncodeFacts PropsEncode LinkFacts TreeFacts ForestFacts SelSpec SelectFacts PropsLinks PropsQuery SerSpec PropsSer ParseSpec ParseFacts PropsParse PropsProv RoundFacts RoundProv RoundSpec RoundTree PropsRound PropsLoad RefFacts PropsTree.
Import ListNotations.
Open Scope string_scope.
Open Scope list_scope.

(* ---------------------------------------------------------------- loading what was saved *)
(* the provenance chain reaches all processors of all declarations, each once, and every declaration has processors *)
Definition provenance_complete (d : document) : Prop := exists l, listed d (doc_chain d) l /\ NoDup l /\
  forall k x, get_declaration d k = Some x -> d_processors x <> [] /\ incl (d_processors x) l.
(* What a file is loaded with: no processor, and no declarations but those the document saved had (as the default text set,
   that is declared by default). *)
Definition plain_props (d : document) (p : docprops) : Prop := props_ok normal p /\ dp_processor p = None /\
  forall t s, In (t, s) (dp_declare p) -> exists k x, get_declaration d k = Some x /\ d_type x = t /\ d_set x = s.
(* declaring again what is declared *)
Lemma declare_again d t s k x : full_ok d -> get_declaration d k = Some x -> d_type x = t -> d_set x = s -> declare d t s None None = (d, Ok k).
Proof.
  intros ((_ & ((_ & _ & HU) & _ & _) & _) & _) G T S. assert (M : d_maybe_id x = Some (index_id t s)) by (unfold d_maybe_id; rewrite T, S; reflexivity). apply (HU _ _ _ G) in M.
  unfold declare. unfold get_declaration_key_by_id, st_id_to_key. rewrite M. reflexivity.
Qed.
Lemma frame_add_class d k c : frame d (fst (doc_add_class d k c)).
Proof.
  unfold doc_add_class. destruct (get_declaration d k) as [dec|] eqn:G; [|apply frame_refl]. destruct (d_add_class dec c) as [dec' r] eqn:A. cbn [fst].
  assert (SF : same_frame dec dec').
  { unfold d_add_class in A. destruct (sopt_add _ _ _) as [o q]. injection A as <- _. repeat split. }
  split; [reflexivity|reflexivity| |].
  - intros j x GX. unfold get_declaration in *. cbn [doc_with_decls doc_decls]. destruct (Nat.eq_dec j k) as [->|N].
    + exists dec'. rewrite (st_get_set_same _ _ _ _ G). assert (x = dec) by congruence. subst x. auto.
    + exists x. rewrite st_get_set_other by exact N. split; [exact GX|repeat split].
  - intros j GX. unfold get_declaration in *. cbn [doc_with_decls doc_decls]. rewrite st_get_set_other; [exact GX|]. intros ->. congruence.
Qed.
Lemma declares_frame l : forall d d', full_ok d -> (forall t s, In (t, s) l -> exists k x, get_declaration d k = Some x /\ d_type x = t /\ d_set x = s) -> apply_declares d l = (d', Ok tt) -> frame d d'.
Proof.
  induction l as [|[t s] l IH]; intros d d' F D H; cbn [apply_declares] in H; [injection H as <-; apply frame_refl|].
  destruct (D t s (or_introl eq_refl)) as (k & x & G & T & S). rewrite (declare_again d t s k x F G T S) in H. cbn [sbind] in H. apply sbind_ok in H. destruct H as (d2 & u & E & H).
  assert (Q : d2 = d \/ d2 = fst (doc_add_class d k "current")).
  { destruct s as [s|]; [|left; congruence]. destruct (String.eqb s DEFAULT_TEXT_SET); [|left; congruence]. right. apply sbind_ok in E. destruct E as (d3 & j & E & E2). rewrite E. cbn [fst]. congruence. }
  assert (FR : frame d d2) by (destruct Q as [->| ->]; [apply frame_refl|apply frame_add_class]).
  eapply frame_trans; [exact FR|]. apply IH; [|intros t' s' I; destruct (D t' s' (or_intror I)) as (k' & x' & G' & T' & S')|exact H].
  - destruct Q as [->| ->]; [exact F|]. eapply full_prims; [apply lift, (doc_add_class_p0 normal)|exact F].
  - destruct (fr_some _ _ FR _ _ G') as (y & GY & TY & SY & _). exists k', y. split; [exact GY|]. split; congruence.
Qed.

Lemma loaded_frame fuel fuel' O p d root e w indent d' : tidy d -> get_elementdata d root = Some e -> (e_parent e <> None \/ root = 0) -> writable_doc d -> values_in_range O d -> plain_props d p ->
  provenance_complete d -> features_home d -> doc_xml fuel O d root = Ok w -> parse_document fuel' O p (reread indent w) = Ok d' ->
  exists d2, agree d d2 /\ frame d2 d' /\ doc_le d2 d' /\ (forall k x, get_declaration d k = Some x -> exists y, get_declaration d2 k = Some y /\ d_alias y = d_alias x /\ d_format y = d_format x /\
      Forall2 (fun a b => exists par, same_processor d d2 par a b) (d_processors x) (d_processors y)) /\
    Forall2 (same_processor d d2 None) (doc_chain d) (doc_chain d') /\
    exists n, same_tree (fun e e' => same_attributes d d' e e' /\ same_references d d' e e') d d' None root 0 n /\ length (st_items (doc_elements d')) = n.
Proof.
  intros T G P WD VR (GP & NP & ND0) (lst & LS & ND & HD) FH W L.
  assert (F : full_ok d) by apply reachable_full, tidy_reachable, T. pose proof (C18_links_agree_partial d T) as CO.
  assert (F' : full_ok d') by (eapply reachable_full, reach_load; [exact GP|apply load_ok_normal|exact L]).
  assert (X : exists m body, w_metadata fuel d = Ok m /\ xml_of O d true root body /\ exists d1 d2 r2, loading indent fuel' O p (doc_id d) (m ++ body ++ [wnl; WEnd "FoLiA"]) d' d1 d2 r2).
  { destruct (C52_xml_is_tree_partial O d root e T G P) as (l & X & FX & _). unfold doc_xml in W. apply rbind_ok in W. destruct W as (m & M & W). apply rbind_ok in W. destruct W as (b & B & W). injection W as <-.
    unfold element_xml in FX. destruct (FX fuel) as [Q|Q]; rewrite B in Q; [discriminate|]. injection Q as ->. exists m, l. split; [exact M|]. split; [exact X|]. eapply load_parts, L. }
  destruct X as (m & body & M & X & d1 & d2 & r2 & LD).
  (* the metadata *)
  destruct (loaded_provenance _ _ _ _ _ _ _ _ _ _ NP LD) as (EP & EC & LE). pose proof (ld_root _ _ _ _ _ _ _ _ _ _ LD) as E1. pose proof (ld_read _ _ _ _ _ _ _ _ _ _ LD) as RD.
  destruct (provenance_read indent fuel d m d1 (body ++ [wnl; WEnd "FoLiA"]) d2 r2 lst (normal_any _ (tidy_reachable _ T)) LS ND HD M) as (CH & DE & _ & DN); try (rewrite E1; reflexivity); [exact RD|].
  assert (A2 : doc_active d2 = None). { destruct RD as (dep & acc & brk & t & RD). rewrite (parse_metadata_active _ _ _ _ _ RD), E1. reflexivity. }
  assert (AG : agree d d2).
  { split; [|exact DN|exact A2]. intros k x GX. destruct (DE k x GX) as (y & GY & TY & SY & _ & _ & PF). exists y. split; [exact GY|]. split; [exact TY|]. split; [exact SY|].
    eapply Forall2_imp; [|exact PF]. intros a b (par & SP). inversion SP as [par' k1 k2 p1 q1 G1 G2 SV PA IX FF]; subst. exists p1, q1. split; [exact G1|]. split; [exact G2|]. split; [apply SV|exact IX]. }
  (* the body *)
  destruct (saved_body _ _ _ _ _ _ _ _ _ _ _ _ _ _ T G WD M X LD) as (a & inside & ev & ks & after & x & d3 & d4 & k & [TA XE NO _ FU NDI PA BT ST AP PE]).
  destruct (body_stored _ _ _ _ _ _ _ _ _ _ GP FU NDI PA ST AP) as (-> & L2 & F2 & F4 & FO & EL & S4 & L4 & PI & TX & NI & LE34).
  destruct (parse_attributes_reads _ _ _ _ PA) as (fs & RA & _). pose proof (own_of O d F VR root e a (fst x) fs G TA RA) as OR.
  assert (NFT : e_type e <> ET_Feature) by (destruct BT as [BT|BT]; rewrite BT; discriminate).
  assert (HOME : forall dk dec, r_declaration_key e = Ok (Some dk) -> get_declaration d dk = Some dec -> e_type e = ET_Feature -> 
    (sole_declaration d dk \/ d_set dec = None) /\ exists pk parent, @None nat = Some pk /\ get_elementdata d2 pk = Some parent /\ et_annotationtype (e_type parent) = Some (d_type dec)) by (intros; contradiction).
  assert (FR3 : frame d2 d3).
  { refine (store_frame _ _ _ _ _ (proj1 F2) _ A2 _ ST); [exact TX|]. intros EN. apply (tag_encodable d e (fst x) fs [] OR) in EN.
    destruct (tag_names d d2 root e (fst x) fs [] None F G OR HOME AG EN) as (dk & dec & decD & _ & _ & _ & NM). eauto. }
  assert (AP2 : apply_declares d3 (dp_declare p) = (d4, Ok tt)) by (unfold apply_properties in AP; rewrite NP in AP; exact AP).
  assert (AS34 : aside d3 d4) by (pose proof (aside_declares (dp_declare p) d3) as Q; rewrite AP2 in Q; exact Q).
  assert (F3 : full_ok d3) by (pose proof (store_add_prims normal d2 (mkElem (e_type e) (fst x) [] None None) None) as Q; rewrite ST in Q; eapply full_prims; [apply Q; exact TX|exact F2]).
  assert (FR4 : frame d2 d4).
  { eapply frame_trans; [exact FR3|]. apply (declares_frame (dp_declare p)); [exact F3| |exact AP2]. intros t s I. destruct (ND0 t s I) as (j & y & GY & TY & SY). destruct (ag_some _ _ (agree_frame _ _ _ AG FR3) _ _ GY) as (z & GZ & TZ & SZ & _).
    exists j, z. split; [exact GZ|]. split; congruence. }
  unfold parse_elements in PE. destruct (st_items (doc_elements d4)) as [|o0 l0]; [discriminate|]. clear o0 l0.
  assert (T3 : type_at d4 0 (e_type e)). { unfold sh in S4. destruct (get_elementdata d4 0) as [e3|] eqn:G3; [|discriminate]. exists e3. split; [exact G3|]. injection S4 as S4 _. exact S4. }
  assert (FO34 : follows d3 d4) by (split; assumption).
  destruct (content_frozen fuel' O d d2 F CO VR FH AG _ _ _ NO root e G (under_data d CO root e G) ev XE 0 [] _ d4 d' F4 FR4 PI T3 PE) as (d5 & PE5 & _ & FR5 & _). cbn in PE5. injection PE5 as ->.
  exists d2. split; [exact AG|]. split; [exact FR5|]. split; [exact LE|]. split. { intros k x0 GX. destruct (DE k x0 GX) as (y & GY & _ & _ & AY & FY & PF). exists y. auto. }
  split; [rewrite EC; exact CH|].
  destruct (content_built fuel' O d4 inside ev XE 0 [] (EvEnd NsFolia (et_as_str (e_type e)) :: after) d4 d' F4 (follows_refl d4) PI PE) as (d6 & l & n & PE6 & PI6 & GA & MD). cbn in PE6. injection PE6 as ->.
  pose proof (agree_frame _ _ _ AG FR5) as AD.
  assert (SR : forall P pe p c e a own feats k' e', get_elementdata d P = Some pe -> type_at d' p (e_type pe) -> get_elementdata d c = Some e -> e_parent e = Some P -> tag_attributes O d e a ->
     reads_attributes O (e_type e) (read_attrs [] a) own feats -> stored d4 (sh_len d4) d' p (e_type e) own k' -> get_elementdata d' k' = Some e' -> e_type e' = e_type e -> feats = [] /\ same_attributes d d' e e' /\ same_references d d' e e').
  { intros P0 pe p0 c e0 a0 own feats k' e0' GP0 TP G0 PA0 TA0 RA0 SD G0' TY0. pose proof (own_of O d F VR c e0 a0 own feats G0 TA0 RA0) as OR0. split; [apply (ow_feats _ _ _ _ OR0)|].
    destruct (stored_kept _ _ _ _ _ _ _ F' SD) as (KA0 & _). assert (VR0 : forall y, In y (e_attribs e0) -> attr_in_range O y) by (intros y Y; eapply VR; eassumption). split; [eapply (attributes_same O d d' c e0 a0 own feats k' e0'); eassumption|].
    destruct SD as (_ & dA & dB & data & FA & FOA & NIA & _ & TXA & SP & STA & FOB).
    assert (FOAd : follows dA d'). { eapply follows_trans; [eapply follows_store; [|exact STA]; exact TXA|exact FOB]. }
    assert (AA : agree d dA). { eapply agree_frame; [exact AG|]. eapply (frame_between d2 dA d'); [eapply follows_trans; [eapply follows_trans; [exact FO|exact FO34]|exact FOA]|exact FOAd|exact FR5]. }
    eapply (references_same d dA dB d' c e0 own feats data (Some p0) k' e0'); try eassumption; [|apply FOB|apply (aside_procs _ _ (proj2 FOB))].
    intros dk dec ED GD FE. destruct (FH _ _ _ _ _ _ G0 FE PA0 GP0 ED GD) as (AT & SDE). split; [exact SDE|]. unfold sh in SP. destruct (get_elementdata dA p0) as [parent|] eqn:GPA; [|exfalso; apply SP; reflexivity]. exists p0, parent. split; [reflexivity|]. split; [exact GPA|].
    destruct (doc_le_elem _ _ _ _ (proj1 FOAd) GPA) as (pe' & GPE & KE). destruct TP as (pe2 & GPE2 & TPE). rewrite GPE in GPE2. injection GPE2 as <-. rewrite <- (ek_type _ _ KE), TPE. exact AT. }
  pose proof (follows_trans _ _ _ FO34 (grows_at_le _ _ _ _ _ GA)) as FO3.
  assert (EL0 : element_is d' 0 (e_type e) None l). { apply element_sh. rewrite (ga_top _ _ _ _ _ GA _ S4). reflexivity. } destruct EL0 as (e' & G' & TY & PR & CT).
  destruct (same_made_under O d d' _ _ CO SR _ _ _ NO root e 0 l n G (under_data d CO root e G) (ex_intro _ e' (conj G' TY)) MD) as (SC & EN).
  exists (S n). split; [|pose proof (ga_len _ _ _ _ _ GA) as Q; unfold sh_len, st_len in Q, L4; rewrite Q, L4; reflexivity].
  assert (VRe : forall y, In y (e_attribs e) -> attr_in_range O y) by (intros y Y; eapply VR; eassumption).
  destruct (tag_kept d2 d3 d' (e_type e) (fst x) [] None 0 F2 NI (fun _ i => match i with end) TX ST (proj1 FO3) F') as (KA & _).
  econstructor; [exact G|exact G'|exact TY|exact PR| |rewrite CT; exact SC]. split.
  - eapply (attributes_same O d d' root e a (fst x) fs 0 e'); eassumption.
  - eapply (references_same d d2 d3 d' root e (fst x) fs [] None 0 e'); try eassumption; [apply FO3|apply (aside_procs _ _ (proj2 FO3))].
Qed.

(* ---------------------------------------------------------------- C54: sets and processors *)
(* If every declaration has processors and they are all in the provenance chain, then every element comes back with its
   declaration, set and processor, provided that its tag shows any of set, class, subset and processor. Missing for the full
   claim: elements whose tag shows none of them (C54_default_set_refuted; layers among them may get their set back, but
   then they lose their ID, C54_layer_id_refuted), features with a set of their own and the only processor of the declaration of a feature (refuted below). *)
Theorem C54_references_partial : forall fuel fuel' O p d root e w indent d',
  tidy d -> get_elementdata d root = Some e -> (e_parent e <> None \/ root = 0) -> writable_doc d -> values_in_range O d -> plain_props d p ->
  provenance_complete d -> features_home d ->
  doc_xml fuel O d root = Ok w -> parse_document fuel' O p (reread indent w) = Ok d' ->
  exists n, same_tree (fun e e' => same_attributes d d' e e' /\ same_references d d' e e') d d' None root 0 n /\ length (st_items (doc_elements d')) = n.
Proof.
  intros fuel fuel' O p d root e w indent d' T G P WD VR PP PC FH W L. destruct (loaded_frame _ _ _ _ _ _ _ _ _ _ T G P WD VR PP PC FH W L) as (d2 & _ & _ & _ & _ & _ & X). exact X.
Qed.
Print Assumptions C54_references_partial.

(* ---------------------------------------------------------------- C55: nothing is added *)
(* Under the same conditions the declarations are the same: none is added, and none gets further processors. *)
Theorem C55_declarations_exact_partial : forall fuel fuel' O p d root e w indent d',
  tidy d -> get_elementdata d root = Some e -> (e_parent e <> None \/ root = 0) -> writable_doc d -> values_in_range O d -> plain_props d p ->
  provenance_complete d -> features_home d ->
  doc_xml fuel O d root = Ok w -> parse_document fuel' O p (reread indent w) = Ok d' ->
  (forall k x, get_declaration d k = Some x -> exists y, get_declaration d' k = Some y /\ d_type y = d_type x /\ d_set y = d_set x /\ d_alias y = d_alias x /\ d_format y = d_format x /\
     Forall2 (fun a b => exists par, same_processor d d' par a b) (d_processors x) (d_processors y)) /\
  (forall k, get_declaration d k = None -> get_declaration d' k = None) /\ doc_active d' = None.
Proof.
  intros fuel fuel' O p d root e w indent d' T G P WD VR PP PC FH W L.
  destruct (loaded_frame _ _ _ _ _ _ _ _ _ _ T G P WD VR PP PC FH W L) as (d2 & AG & FR & LE & DE & _ & _).
  split; [|split; [intros k N; apply (fr_none _ _ FR), (ag_none _ _ AG), N|rewrite (fr_active _ _ FR); apply (ag_active _ _ AG)]].
  intros k x GX. destruct (DE k x GX) as (y & GY & AY & FY & PY). destruct (fr_some _ _ FR _ _ GY) as (z & GZ & TZ & SZ & PZ). destruct (ag_some _ _ AG _ _ GX) as (y' & GY' & TY & SY & _). rewrite GY in GY'. injection GY' as <-.
  destruct LE as [_ (KE & _ & _) _]. destruct (KE k y GY) as (z' & GZ' & [_ _ _ KA KF _ _ _ _ _ _ _]). unfold get_declaration in GZ; rewrite GZ in GZ'. injection GZ' as <-.
  exists z. split; [exact GZ|]. repeat (split; [congruence|]). rewrite PZ. eapply Forall2_imp; [|exact PY]. intros a b (par & SP). exists par. exact (same_kept _ _ _ (fr_procs _ _ FR) _ _ _ SP).
Qed.
Print Assumptions C55_declarations_exact_partial.

(* ---------------------------------------------------------------- examples *)
Definition soleb (d : document) (k : nat) : bool := match nth_error (default_mask (doc_decls d)) k with Some b => b | None => false end.
Definition homeb (d : document) (e : elementdata) : bool :=
  negb (et_eqb (e_type e) ET_Feature) ||
  match e_parent e, r_declaration_key e with
  | Some pk, Ok (Some dk) => match get_elementdata d pk, get_declaration d dk with
                             | Some pe, Some dec => at_opt_eqb (et_annotationtype (e_type pe)) (Some (d_type dec)) && (soleb d dk || negb (is_some (d_set dec)))
                             | _, _ => true
                             end
  | _, _ => true
  end.
Lemma homeb_spec d : all_elements d (homeb d) = true -> features_home d.
Proof.
  intros A k e pk pe dk dec G FE PA GP DK GD. pose proof (all_elements_spec _ _ A _ _ G) as H. cbn beta in H. unfold homeb in H. rewrite FE, PA, DK, GP, GD in H. cbn [et_eqb negb orb] in H.
  change (negb (et_eqb ET_Feature ET_Feature)) with false in H. cbn [orb] in H. apply andb_prop in H. destruct H as (H1 & H2). split; [apply at_opt_eqb_eq, H1|]. apply orb_prop in H2. destruct H2 as [H2|H2].
  - left. destruct (mask_sole d dk dec GD) as (b & N & S). unfold soleb in H2. rewrite N in H2. apply S, H2.
  - right. destruct (d_set dec); [discriminate|reflexivity].
Qed.
(* tests on what an element, found by its ID, reports *)
Definition processor_by_id (d : document) (id : string) : res (option string) :=
  match get_element_key_by_id d id with
  | Some k => match get_elementdata d k with Some e => r_processor d e | None => Panic end
  | None => Panic
  end.
Definition processor_is (d : document) (id : string) (s : option string) : bool :=
  match processor_by_id d id, s with Ok (Some x), Some y => String.eqb x y | Ok None, None => true | _, _ => false end.
Lemma processor_is_spec d id s : processor_is d id s = true -> processor_by_id d id = Ok s.
Proof. unfold processor_is. destruct (processor_by_id d id) as [[x|]| | |], s as [y|]; try discriminate; [intros H; apply String.eqb_eq in H; congruence|reflexivity]. Qed.
Lemma no_props_plain d : plain_props d no_props.
Proof. split; [apply props_okb_spec; vm_compute; reflexivity|]. split; [reflexivity|]. intros t s []. Qed.
(* The default properties: a document that declares the default text set can be loaded with them, as the example document. *)
Lemma default_plain d k x : get_declaration d k = Some x -> d_type x = AT_TEXT -> d_set x = Some DEFAULT_TEXT_SET -> plain_props d dp_default.
Proof. intros G T S. split; [intros pr Q; discriminate|]. split; [reflexivity|]. intros t s [E|[]]. injection E as <- <-. eauto. Qed.
Definition declares_text (d : document) : bool := match declare d AT_TEXT (Some DEFAULT_TEXT_SET) None None with
  | (_, Ok k) => match get_declaration d k with Some x => at_eqb (d_type x) AT_TEXT && match d_set x with Some s => String.eqb s DEFAULT_TEXT_SET | None => false end | None => false end | _ => false end.
Lemma declares_text_spec d : declares_text d = true -> plain_props d dp_default.
Proof.
  unfold declares_text. destruct (declare d AT_TEXT _ None None) as [d1 [k|z| |]]; try discriminate. destruct (get_declaration d k) as [x|] eqn:G; [|discriminate]. intros H. apply andb_prop in H. destruct H as (H1 & H2).
  destruct (d_set x) as [s|] eqn:S; [|discriminate]. apply String.eqb_eq in H2. subst s. eapply default_plain; [exact G| |exact S]. revert H1. destruct (d_type x); solve [reflexivity|discriminate].
Qed.
Example C54_default_properties_nonvacuous : plain_props ex_doc dp_default.
Proof. apply declares_text_spec. vm_compute. reflexivity. Qed.
(* the example document with a second part-of-speech set, a feature, and annotations by two processors of one declaration *)
Definition two_sets : list op :=
  [OAddElementTo 2 (mkElem ET_Feature [A_Id "f.1"; A_Subset "number"; A_Class "plural"] [] None None);
   OAddElementTo 3 (mkElem ET_LemmaAnnotation [A_Id "l.1"; A_Set "lemset"; A_Class "hello"; A_Processor "proc1"] [] None None)].
Example C54_references_nonvacuous : exists d d', tidy d /\ writable_doc d /\ values_in_range rt_oracle d /\ plain_props d no_props /\ provenance_complete d /\ features_home d /\ loads_back 2 d d' /\
  (exists e, get_elementdata d 0 = Some e) /\
  set_by_id d "f.1" = Ok (Some "posset") /\ set_by_id d' "f.1" = Ok (Some "posset") /\ processor_by_id d "l.1" = Ok (Some "proc1") /\ processor_by_id d' "l.1" = Ok (Some "proc1").
Proof.
  destruct (tree_case 2 two_sets (fun d d' => all_elements d (fun e => writableb d (text_first (e_type e)) (e_data e)) && provenance_ok d && all_elements d (homeb d) && is_some (get_elementdata d 0) &&
    set_is d "f.1" (Some "posset") && set_is d' "f.1" (Some "posset") && processor_is d "l.1" (Some "proc1") && processor_is d' "l.1" (Some "proc1"))) as (d & d' & T & V & L & P); [vm_compute; reflexivity|].
  repeat match type of P with _ && _ = true => apply andb_prop in P; destruct P as (P & ?) end. exists d, d'.
  split; [exact T|]. split; [intros k e G; apply writableb_spec, (all_elements_spec _ _ P _ _ G)|]. split; [exact V|]. split; [exact (no_props_plain d)|]. split; [apply provenance_ok_spec; assumption|]. split; [apply homeb_spec; assumption|]. split; [exact L|].
  split; [destruct (get_elementdata d 0); [eauto|discriminate]|]. auto 8 using set_is_spec, processor_is_spec.
Qed.
(* A feature with a set of its own loses it if the annotation type of its parent has other sets, and loading adds a
   declaration. *)
Definition decl_count (d : document) : nat := length (st_items (doc_decls d)).
Theorem C54_feature_set_refuted : exists d d', tidy d /\ writable_doc d /\ values_in_range rt_oracle d /\ provenance_complete d /\ loads_back 2 d d' /\
  set_by_id d "f.1" = Ok (Some "posset") /\ set_by_id d' "f.1" = Ok None /\ decl_count d' = S (decl_count d).
Proof.
  destruct (tree_case 2 [OAddElementTo 3 (mkElem ET_PosAnnotation [A_Set "posset2"; A_Class "N"] [] None None); OAddElementTo 2 (mkElem ET_Feature [A_Id "f.1"; A_Set "posset"; A_Subset "number"; A_Class "plural"] [] None None)]
    (fun d d' => all_elements d (fun e => writableb d (text_first (e_type e)) (e_data e)) && provenance_ok d && set_is d "f.1" (Some "posset") && set_is d' "f.1" None && Nat.eqb (decl_count d') (S (decl_count d)))) as (d & d' & T & V & L & P); [vm_compute; reflexivity|].
  repeat match type of P with _ && _ = true => apply andb_prop in P; destruct P as (P & ?) end. exists d, d'.
  split; [exact T|]. split; [intros k e G; apply writableb_spec, (all_elements_spec _ _ P _ _ G)|]. split; [exact V|]. split; [apply provenance_ok_spec; assumption|]. split; [exact L|]. repeat split; try (apply set_is_spec; assumption). apply Nat.eqb_eq; assumption.
Qed.
Print Assumptions C54_feature_set_refuted.
(* A feature loses its processor if that is the only one of the declaration. *)
Theorem C54_feature_processor_refuted : exists d d', tidy d /\ writable_doc d /\ values_in_range rt_oracle d /\ provenance_complete d /\ features_home d /\ loads_back 2 d d' /\
  processor_by_id d "f.1" = Ok (Some "proc2") /\ processor_by_id d' "f.1" = Ok None.
Proof.
  destruct (tree_case 2 [OAddElementTo 16 (mkElem ET_Feature [A_Id "f.1"; A_Subset "number"; A_Class "plural"; A_Processor "proc2"] [] None None)]
    (fun d d' => all_elements d (fun e => writableb d (text_first (e_type e)) (e_data e)) && provenance_ok d && all_elements d (homeb d) && processor_is d "f.1" (Some "proc2") && processor_is d' "f.1" None)) as (d & d' & T & V & L & P); [vm_compute; reflexivity|].
  repeat match type of P with _ && _ = true => apply andb_prop in P; destruct P as (P & ?) end. exists d, d'.
  split; [exact T|]. split; [intros k e G; apply writableb_spec, (all_elements_spec _ _ P _ _ G)|]. split; [exact V|]. split; [apply provenance_ok_spec; assumption|]. split; [apply homeb_spec; assumption|]. split; [exact L|]. split; apply processor_is_spec; assumption.
Qed.
Print Assumptions C54_feature_processor_refuted.
(* A layer whose tag shows no set loses its ID when it takes the set of an element in it. *)
Definition id_by_id (d : document) (id : string) : option (list Attribute) :=
  match get_element_key_by_id d id with
  | Some k => match get_elementdata d k with Some e => Some (filter (fun a => match a with A_Id _ => true | _ => false end) (e_attribs e)) | None => None end
  | None => None
  end.
Definition id_is (d : document) (id : string) (keeps : bool) : bool :=
  match id_by_id d id with Some [A_Id x] => keeps && String.eqb x id | Some [] => negb keeps | _ => false end.
Lemma id_is_spec d id keeps : id_is d id keeps = true -> id_by_id d id = Some (if keeps then [A_Id id] else []).
Proof.
  unfold id_is. destruct (id_by_id d id) as [[|a [|b l]]|]; try discriminate; [destruct keeps; [discriminate|reflexivity]| |destruct a; discriminate].
  destruct a; try discriminate. intros H. apply andb_prop in H. destruct H as (K & H). apply String.eqb_eq in H. subst. reflexivity.
Qed.
Theorem C54_layer_id_refuted : exists d d', tidy d /\ writable_doc d /\ values_in_range rt_oracle d /\ provenance_complete d /\ features_home d /\ loads_back 2 d d' /\
  id_by_id d "el.1" = Some [A_Id "el.1"] /\ set_by_id d "el.1" = Ok (Some "entset") /\ id_by_id d' "el.1" = Some [] /\ set_by_id d' "el.1" = Ok (Some "entset").
Proof.
  destruct (tree_case 2 [OAddElementTo 10 (mkElem ET_EntitiesLayer [A_Id "el.1"; A_Set "entset"] [DAddElement (mkElem ET_Entity [A_Set "entset"; A_Class "per"] [] None None)] None None)]
    (fun d d' => all_elements d (fun e => writableb d (text_first (e_type e)) (e_data e)) && provenance_ok d && all_elements d (homeb d) && id_is d "el.1" true && set_is d "el.1" (Some "entset") && id_is d' "el.1" false && set_is d' "el.1" (Some "entset"))) as (d & d' & T & V & L & P); [vm_compute; reflexivity|].
  repeat match type of P with _ && _ = true => apply andb_prop in P; destruct P as (P & ?) end. exists d, d'.
  split; [exact T|]. split; [intros k e G; apply writableb_spec, (all_elements_spec _ _ P _ _ G)|]. split; [exact V|]. split; [apply provenance_ok_spec; assumption|]. split; [apply homeb_spec; assumption|]. split; [exact L|].
  split; [apply (id_is_spec d "el.1" true); assumption|]. split; [apply set_is_spec; assumption|]. split; [apply (id_is_spec d' "el.1" false); assumption|apply set_is_spec; assumption].
Qed.
Print Assumptions C54_layer_id_refuted.
