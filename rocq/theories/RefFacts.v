(* Loading what was saved: the declarations stay as they were while the body is read, so the elements find the
   declarations and processors they had. *)
From Coq Require Import String List Bool Arith NArith Lia.
From Verif Require Import Base BaseFacts Types TypesFacts SpecTable Attrib AttribFacts Element Store StoreFacts Metadata Document Select DocOps Xml Parser Serialiser History Spec
  FrameFacts InvFacts DocFacts Examples StoreThms InternFacts EncodeFacts PropsEncode LinkFacts TreeFacts ForestFacts SelSpec SelectFacts PropsLinks PropsQuery SerSpec PropsSer ParseSpec ParseFacts PropsParse PropsProv RoundFacts RoundProv RoundSpec RoundTree PropsRound PropsLoad.
Import ListNotations.
Open Scope string_scope.
Open Scope list_scope.

(* ---------------------------------------------------------------- the frame of the declarations *)
Definition same_frame (x y : declaration) : Prop := d_type y = d_type x /\ d_set y = d_set x /\ d_processors y = d_processors x.
Record frame (D D1 : document) : Prop := {
  fr_procs : doc_procs D1 = doc_procs D;
  fr_active : doc_active D1 = doc_active D;
  fr_some : forall k x, get_declaration D k = Some x -> exists y, get_declaration D1 k = Some y /\ same_frame x y;
  fr_none : forall k, get_declaration D k = None -> get_declaration D1 k = None }.
Lemma frame_refl D : frame D D.
Proof. split; auto. intros k x G. exists x. repeat split. exact G. Qed.
Lemma frame_trans A B C : frame A B -> frame B C -> frame A C.
Proof.
  intros [P1 A1 S1 N1] [P2 A2 S2 N2]. split; [congruence|congruence| |auto]. intros k x G. destruct (S1 _ _ G) as (y & G1 & T1 & U1 & V1). destruct (S2 _ _ G1) as (z & G2 & T2 & U2 & V2). exists z. split; [exact G2|]. repeat split; congruence.
Qed.
Lemma frame_same D D1 : doc_decls D1 = doc_decls D -> doc_procs D1 = doc_procs D -> doc_active D1 = doc_active D -> frame D D1.
Proof. intros E1 E2 E3. split; auto; unfold get_declaration; rewrite E1; [|auto]. intros k x G. exists x. repeat split. exact G. Qed.
Lemma frame_intern v D dk r D1 o : intern_opt D dk (v_add v) r = (D1, o) -> frame D D1.
Proof.
  unfold intern_opt. destruct r as [[x|]| | |]; try (intros H; injection H as <- _; apply frame_refl). destruct (get_declaration D dk) as [dec|] eqn:G; [|intros H; injection H as <- _; apply frame_refl].
  destruct (v_add v dec x) as [dec' k] eqn:A. intros H. injection H as <- _.
  assert (SF : same_frame dec dec'). { destruct v; cbn in A; unfold d_add_class, d_add_subset, d_add_subclass in A; destruct (sopt_add _ _ _); inversion A; repeat split. }
  split; [reflexivity|reflexivity| |]; unfold get_declaration in *; cbn [doc_with_decls doc_decls]; intros j.
  - intros y Y. destruct (Nat.eq_dec j dk) as [->|N]; [rewrite (st_get_set_same _ _ _ _ G)|rewrite st_get_set_other by exact N].
    + exists dec'. split; [reflexivity|]. congruence.
    + exists y. repeat split. exact Y.
  - intros Y. destruct (Nat.eq_dec j dk) as [->|N]; [congruence|]. rewrite st_get_set_other by exact N. exact Y.
Qed.
Lemma assoc_listed D dk pk dec : get_declaration D dk = Some dec -> In pk (d_processors dec) -> assoc_processor D dk pk = D.
Proof.
  intros G I'. unfold assoc_processor, upd_declaration. rewrite G. unfold push_if_absent. apply mem_nat_In in I'. rewrite I'.
  replace (d_with_processors dec (d_processors dec)) with dec by (destruct dec; reflexivity). unfold get_declaration in G. rewrite (st_set_id _ _ _ G). apply doc_with_decls_id.
Qed.
Lemma declare_found D t s dk dec : doc_ok D -> doc_active D = None -> get_declaration D dk = Some dec -> d_type dec = t ->
  (d_set dec = s \/ s = None /\ only_decl (doc_decls D) t dk) -> declare D t s None None = (D, Ok dk).
Proof.
  intros W A G T C.
  assert (IX : d_set dec = s -> get_declaration_key_by_id D (index_id t s) = Some dk).
  { intros E. destruct W as (_ & ((_ & _ & Hu) & _) & _). apply (Hu dk dec (index_id t s)); [exact G|]. unfold d_maybe_id. congruence. }
  destruct C as [C|(-> & O)]; [unfold declare; rewrite (IX C); reflexivity|].
  pose proof (proj2 (default_key_spec _ _ _) O) as DK. unfold declare. destruct (get_declaration_key_by_id D (index_id t None)) as [k|] eqn:K.
  - destruct W as (_ & ((_ & Hi & _) & _) & _). destruct (Hi _ _ K) as (y & GY & M). unfold d_maybe_id in M. assert (M2 : index_id (d_type y) (d_set y) = index_id t None) by congruence. apply index_id_inj in M2. destruct M2 as (M2 & _). destruct O as (_ & U). rewrite (U k y GY M2). reflexivity.
  - cbv zeta. rewrite DK, G. cbn [sbind]. rewrite A. reflexivity.
Qed.

(* ---------------------------------------------------------------- storing a tag changes no frame *)
(* the annotation type under which an element is declared when it is added under ctx *)
Definition home (D : document) (e0 : elementdata) (ctx : option nat) (t : AnnotationType) : Prop :=
  et_annotationtype (e_type e0) = Some t \/
  et_annotationtype (e_type e0) = None /\ e_type e0 = ET_Feature /\ exists pk parent, ctx = Some pk /\ get_elementdata D pk = Some parent /\ et_annotationtype (e_type parent) = Some t.
(* the element names a declaration that is there, by its set or as the only one of its type, and a processor listed there *)
Record names (D : document) (e0 : elementdata) (ctx : option nat) (dk : nat) (dec : declaration) : Prop := {
  nm_home : home D e0 ctx (d_type dec);
  nm_get : get_declaration D dk = Some dec;
  nm_set : d_set dec = first_pick pick_set (e_attribs e0) \/ first_pick pick_set (e_attribs e0) = None /\ only_decl (doc_decls D) (d_type dec) dk;
  nm_proc : forall id pk, first_pick pick_processor (e_attribs e0) = Some id -> get_processor_key_by_id D id = Some pk -> In pk (d_processors dec) }.
Lemma encode_refs_names D e0 ctx dk dec D1 n : doc_ok D -> textual (e_attribs e0) -> doc_active D = None -> names D e0 ctx dk dec ->
  encode_refs D e0 ctx = (D1, Ok n) -> frame D D1 /\ en_dec n = Some dk /\ en_test n = false.
Proof.
  intros W T A [HM G ST _] H. unfold encode_refs in H.
  assert (ES : unwrap (e_set e0) = Ok (first_pick pick_set (e_attribs e0))) by (unfold e_set; rewrite (scan_decoded_textual _ _ T); reflexivity).
  pose proof (declare_found D (d_type dec) (first_pick pick_set (e_attribs e0)) dk dec W A G eq_refl ST) as DF.
  destruct HM as [HM|(HM & F & pk & parent & -> & GP & HP)].
  - rewrite HM, ES in H. cbn [sbind] in H. rewrite DF in H. cbn [sbind] in H.
    destruct (intern_opt D dk d_add_class (e_class e0)) as [D2 ck] eqn:IC. pose proof (frame_intern VClass _ _ _ _ _ IC) as FR.
    destruct (fr_some _ _ FR _ _ G) as (dec2 & G2 & _). rewrite G2 in H. rewrite (fr_active _ _ FR), A in H.
    destruct (d_default_processor dec2); inversion H; subst; auto.
  - rewrite HM, F in H. rewrite GP in H. cbn [ok_or sbind] in H. rewrite HP in H. cbn [expect sbind] in H. rewrite ES in H. cbn [sbind] in H. rewrite DF in H. cbn [sbind] in H.
    destruct (intern_opt D dk d_add_subclass (e_class e0)) as [D2 ck] eqn:IC. pose proof (frame_intern VSubclass _ _ _ _ _ IC) as FR.
    destruct (intern_opt D2 dk d_add_subset (e_subset e0)) as [D3 sk] eqn:IS. pose proof (frame_intern VSubset _ _ _ _ _ IS) as FR2.
    inversion H; subst. split; [exact (frame_trans _ _ _ FR FR2)|]. auto.
Qed.
Lemma encode_names D e0 ctx dk dec D1 e1 : doc_ok D -> textual (e_attribs e0) -> doc_active D = None -> names D e0 ctx dk dec -> e_encodable e0 = true ->
  encode D e0 ctx = (D1, Ok e1) -> frame D D1 /\ e_declaration_key e1 = Ok (Some dk).
Proof.
  intros W T A NM EN H. unfold encode in H. rewrite EN in H. cbn [negb] in H. apply sbind_ok in H. destruct H as (D2 & n & H & E). cbn zeta in E. injection E as <- <-.
  destruct (encode_refs_names _ _ _ _ _ _ _ W T A NM H) as (FR & ED & ET).
  assert (EX : en_dec (encode_explicit D2 e0 n) = Some dk). { unfold encode_explicit. destruct (e_processor e0) as [[pid|]| | |]; try exact ED. destruct (get_processor_key_by_id D2 pid); exact ED. }
  split; [|rewrite <- EX; apply (shape_dec (e_type e0)); exact (plain_filter _ T)].
  refine (frame_trans _ _ _ FR _). unfold encode_assoc. destruct (en_test (encode_explicit D2 e0 n)) eqn:TT; [|apply frame_refl]. rewrite EX.
  unfold encode_explicit in *. unfold e_processor in *. rewrite (scan_decoded_textual _ _ T) in *.
  destruct (first_pick pick_processor (e_attribs e0)) as [pid|] eqn:FP; [|congruence]. destruct (get_processor_key_by_id D2 pid) as [pk|] eqn:K; [|congruence]. cbn [en_proc].
  assert (K0 : get_processor_key_by_id D pid = Some pk) by (unfold get_processor_key_by_id in *; rewrite <- (fr_procs _ _ FR); exact K).
  pose proof (nm_proc _ _ _ _ _ NM _ _ FP K0) as IN. destruct (fr_some _ _ FR _ _ (nm_get _ _ _ _ _ NM)) as (dec2 & G2 & _ & _ & PR). rewrite (assoc_listed _ _ _ dec2 G2) by congruence. apply frame_refl.
Qed.
Lemma encode_plain D e0 ctx D1 e1 : e_encodable e0 = false \/ et_annotationtype (e_type e0) = None /\ e_type e0 <> ET_Feature ->
  encode D e0 ctx = (D1, Ok e1) -> D1 = D.
Proof.
  intros C H. unfold encode in H. destruct (e_encodable e0); cbn [negb] in H; [|congruence]. destruct C as [C|(C & C2)]; [discriminate|].
  apply sbind_ok in H. destruct H as (D2 & n & H & E). cbn zeta in E. injection E as <- <-. unfold encode_refs in H. rewrite C in H.
  assert (H2 : (D, Ok (mkEnc None None None None false)) = (D2, Ok n)) by (destruct (e_type e0); congruence). injection H2 as <- <-. unfold encode_assoc, encode_explicit.
  destruct (e_processor e0) as [[pid|]| | |]; cbn; try reflexivity. destruct (get_processor_key_by_id D pid); reflexivity.
Qed.
Lemma store_frame D e0 ctx D1 k : doc_ok D -> textual (e_attribs e0) -> doc_active D = None ->
  (e_encodable e0 = true -> exists dk dec, names D e0 ctx dk dec) -> store_add D e0 ctx = (D1, Ok k) -> frame D D1.
Proof.
  intros W T A NM H. unfold store_add in H. apply sbind_ok in H. destruct H as (D2 & e1 & H & E).
  assert (FR : frame D D2).
  { destruct (e_encodable e0) eqn:EN; [|injection H as <- _; apply frame_refl]. destruct (NM eq_refl) as (dk & dec & N). eapply encode_names; eassumption. }
  destruct (st_add max_element e_maybe_id e_assign_key (doc_elements D2) e1) as [s r]. injection E as <- _. refine (frame_trans _ _ _ FR _). apply frame_same; reflexivity.
Qed.
Lemma frame_meta D D1 : same_meta D D1 -> frame D D1.
Proof. intros [A B C _]. apply frame_same; assumption. Qed.
Lemma frame_between A B C : follows A B -> follows B C -> frame A C -> frame A B.
Proof.
  intros (LA & SA) (LB & SB) [P AC S N]. pose proof (aside_procs _ _ SA) as P1. pose proof (aside_active _ _ SA) as A1. split; [exact P1|exact A1| |].
  - intros k x G. destruct (doc_le_decl _ _ _ _ LA G) as (y & GY & K1). destruct (doc_le_decl _ _ _ _ LB GY) as (z & GZ & K2). destruct (S _ _ G) as (z' & GZ' & _ & _ & PZ). rewrite GZ in GZ'. injection GZ' as <-.
    exists y. split; [exact GY|]. split; [apply (dk_type _ _ K1)|]. split; [apply (dk_set _ _ K1)|]. destruct (dk_procs _ _ K1) as (m1 & E1). destruct (dk_procs _ _ K2) as (m2 & E2).
    rewrite E2, E1, <- app_assoc in PZ. assert (Q : m1 ++ m2 = []). { apply (app_inv_head (d_processors x)). rewrite app_nil_r. exact PZ. } apply app_eq_nil in Q. destruct Q as (-> & _). rewrite E1. apply app_nil_r.
  - intros k G. destruct (get_declaration B k) as [y|] eqn:GY; [|reflexivity]. destruct (doc_le_decl _ _ _ _ LB GY) as (z & GZ & _). rewrite (N k G) in GZ. discriminate.
Qed.

(* ---------------------------------------------------------------- the loaded document has the declarations of the saved one *)
Definition same_id (d D : document) (a b : nat) : Prop :=
  exists p q, get_processor d a = Some p /\ get_processor D b = Some q /\ pr_id q = pr_id p /\ get_processor_key_by_id D (pr_id p) = Some b.
Record agree (d D : document) : Prop := {
  ag_some : forall k x, get_declaration d k = Some x -> exists y, get_declaration D k = Some y /\ d_type y = d_type x /\ d_set y = d_set x /\ Forall2 (same_id d D) (d_processors x) (d_processors y);
  ag_none : forall k, get_declaration d k = None -> get_declaration D k = None;
  ag_active : doc_active D = None }.
Lemma agree_frame d D D1 : agree d D -> frame D D1 -> agree d D1.
Proof.
  intros [S N A] [P AC SF NF]. split; [|auto|congruence]. intros k x G. destruct (S k x G) as (y & GY & T & U & F). destruct (SF k y GY) as (z & GZ & T2 & U2 & PZ).
  exists z. split; [exact GZ|]. split; [congruence|]. split; [congruence|]. rewrite PZ. eapply Forall2_imp; [|exact F]. intros a b (p & q & G1 & G2 & E & I'). exists p, q. unfold get_processor, get_processor_key_by_id in *. rewrite P. auto.
Qed.
Lemma agree_sole d D k : agree d D -> sole_declaration d k -> exists y, get_declaration D k = Some y /\ only_decl (doc_decls D) (d_type y) k.
Proof.
  intros [S N _] (dec & G & U). destruct (S k dec G) as (y & GY & T & _). exists y. split; [exact GY|]. split; [exists y; auto|]. intros j z GZ TZ.
  destruct (get_declaration d j) as [w|] eqn:GW; [|specialize (N j GW); unfold get_declaration in N; congruence].
  destruct (S j w GW) as (z' & GZ' & T' & _). unfold get_declaration in GZ'. rewrite GZ in GZ'. injection GZ' as <-. apply (U j w GW). congruence.
Qed.

Lemma pick_in_set l s : first_pick pick_set l = Some s -> In (A_Set s) l.
Proof. intros H. apply first_pick_some in H. destruct H as (a & I' & P). destruct a; try discriminate P. injection P as ->. exact I'. Qed.
Lemma pick_in_processor l s : first_pick pick_processor l = Some s -> In (A_Processor s) l.
Proof. intros H. apply first_pick_some in H. destruct H as (a & I' & P). destruct a; try discriminate P. injection P as ->. exact I'. Qed.
Lemma pick_set_in l s : unique_types l -> In (A_Set s) l -> first_pick pick_set l = Some s.
Proof. intros U I'. apply (first_pick_unique pick_set AB_SET l (A_Set s)); auto. intros a x. destruct a; discriminate || reflexivity. Qed.
Lemma pick_processor_in l s : unique_types l -> In (A_Processor s) l -> first_pick pick_processor l = Some s.
Proof. intros U I'. apply (first_pick_unique pick_processor AB_PROCESSOR l (A_Processor s)); auto. intros a x. destruct a; discriminate || reflexivity. Qed.

Lemma Forall2_left {A B} (R : A -> B -> Prop) l m x : Forall2 R l m -> In x l -> exists y, In y m /\ R x y.
Proof. intros F. induction F as [|a b l m AB F IH]; [intros []|]. intros [<-|I']; [exists b; split; [left; reflexivity|exact AB]|]. destruct (IH I') as (y & Y & Z). exists y. split; [right; exact Y|exact Z]. Qed.

Section Tag.
Variables (d D : document) (k : nat) (e : elementdata) (own : list Attribute) (feats : list (string * string)) (data : list datatype) (ctx : option nat).
Hypotheses (F : full_ok d) (G : get_elementdata d k = Some e) (OR : read_own d e own feats) (TX : textual own).
Hypothesis HOME : forall dk dec, r_declaration_key e = Ok (Some dk) -> get_declaration d dk = Some dec -> e_type e = ET_Feature -> 
  (sole_declaration d dk \/ d_set dec = None) /\ exists pk parent, ctx = Some pk /\ get_elementdata D pk = Some parent /\ et_annotationtype (e_type parent) = Some (d_type dec).
Let e0 := mkElem (e_type e) own data None None.
Lemma tag_encodable : e_encodable e0 = true <-> marked_tag d e.
Proof.
  unfold e_encodable, e0. cbn [e_attribs]. rewrite existsb_exists. split.
  - intros (x & I' & E). destruct x; try discriminate E; [left|right; left|right; right; right|right; right; left]; eexists; first [apply (ow_set _ _ _ _ OR)|apply (ow_class _ _ _ _ OR)|apply (ow_proc _ _ _ _ OR)|apply (ow_subset _ _ _ _ OR)]; exact I'.
  - intros [(s & H)|[(c & H)|[(x & H)|(id & H)]]]; [apply (ow_set _ _ _ _ OR) in H|apply (ow_class _ _ _ _ OR) in H|apply (ow_subset _ _ _ _ OR) in H|apply (ow_proc _ _ _ _ OR) in H]; eexists; (split; [exact H|reflexivity]).
Qed.
Lemma marked_dec : marked_tag d e -> exists dk dec, r_declaration_key e = Ok (Some dk) /\ get_declaration d dk = Some dec /\ r_set d e = Ok (d_set dec) /\
  (forall t, et_annotationtype (e_type e) = Some t -> d_type dec = t) /\ (e_type e = ET_Feature \/ et_annotationtype (e_type e) <> None) /\
  forall id, r_processor d e = Ok (Some id) -> exists pk q, r_processor_key e = Ok (Some pk) /\ In pk (d_processors dec) /\ get_processor d pk = Some q /\ pr_id q = id.
Proof.
  destruct F as (_ & _ & _ & EO). destruct (EO _ _ G) as (p & n & AE & PL & RO). cbn in AE. intros M.
  assert (ED : exists dk, en_dec n = Some dk).
  { destruct (en_dec n) as [dk|] eqn:ED; [eauto|]. exfalso. destruct M as [(s & dk & X & _)|[(c & X)|[(x & X)|(id & dk & pk & X & _)]]].
    - rewrite (rep_dec e p n AE PL) in X. congruence.
    - rewrite (rep_class d e p n AE PL), ED in X. destruct (en_class n); discriminate X.
    - rewrite (rep_subset d e p n AE PL), ED in X. discriminate X.
    - rewrite (rep_dec e p n AE PL) in X. congruence. }
  destruct ED as (dk & ED). destruct (ro_dec _ _ _ RO dk ED) as (dec & GD & TD). exists dk, dec. rewrite (rep_dec e p n AE PL), (rep_set d e p n AE PL), (rep_proc d e p n AE PL), (rep_proc_key e p n AE PL), ED. cbn [obind]. rewrite GD.
  split; [reflexivity|]. split; [reflexivity|]. split; [reflexivity|]. split; [exact TD|]. split; [apply (ro_kind _ _ _ RO); congruence|].
  intros id H. destruct (en_proc n) as [pk|] eqn:EP; [|discriminate H]. cbn [obind option_map] in H. destruct (get_processor d pk) as [q|] eqn:GP; [|discriminate H]. exists pk, q. split; [reflexivity|].
  split; [|split; [exact GP|cbn in H; congruence]]. destruct (ro_listed _ _ _ RO pk dk EP ED) as (dec2 & GD2 & IN). congruence.
Qed.
Lemma tag_names : agree d D -> marked_tag d e -> exists dk dec decD, r_declaration_key e = Ok (Some dk) /\ get_declaration d dk = Some dec /\ get_declaration D dk = Some decD /\ names D e0 ctx dk decD.
Proof.
  intros AG M. destruct (marked_dec M) as (dk & dec & ED & GD & RS & TD & KI & PR). destruct (ag_some _ _ AG _ _ GD) as (y & GY & T & S & PF). exists dk, dec, y.
  split; [exact ED|]. split; [exact GD|]. split; [exact GY|].
  assert (NS : first_pick pick_set own = None \/ exists s, first_pick pick_set own = Some s /\ d_set dec = Some s /\ ~ sole_declaration d dk).
  { destruct (first_pick pick_set own) as [s|] eqn:FS; [right|left; reflexivity]. exists s. split; [reflexivity|]. apply pick_in_set in FS. apply (ow_set _ _ _ _ OR) in FS. destruct FS as (dk' & ED' & NSD & _ & RS'). split; [congruence|]. congruence. }
  split; cbn [e_type e_attribs e0].
  - unfold home. cbn [e_type e0]. destruct (et_annotationtype (e_type e)) as [t|] eqn:AT; [left; rewrite T, (TD t eq_refl); reflexivity|]. destruct KI as [KI|KI]; [|congruence]. right. split; [reflexivity|]. split; [exact KI|].
    destruct (HOME dk dec ED GD KI) as (_ & pk & par & X1 & X2 & X3). exists pk, par. rewrite T. auto.
  - exact GY.
  - destruct NS as [NS|(s & NS & DS & NSD)]; [|left; rewrite NS; congruence].
    assert (SD : sole_declaration d dk \/ d_set dec = None).
    { destruct (et_eqb (e_type e) ET_Feature) eqn:FE; [apply et_eqb_iff in FE; apply (HOME dk dec ED GD FE)|]. destruct (d_set dec) as [s|] eqn:DS; [|right; reflexivity]. left.
      assert (NF : e_type e <> ET_Feature) by (intros Q; rewrite Q in FE; discriminate).
      destruct (sole_decidable d dk) as [SD|SD]; [exact SD|]. exfalso. assert (X : shows_set d e s) by (exists dk; auto). apply (ow_set _ _ _ _ OR) in X. apply (pick_set_in _ _ (ow_unique _ _ _ _ OR)) in X. congruence. }
    destruct SD as [SD|SD]; [right|left; rewrite NS; congruence]. split; [exact NS|]. destruct (agree_sole _ _ _ AG SD) as (y' & GY' & OD). congruence.
  - intros id pk FP K. apply pick_in_processor in FP. apply (ow_proc _ _ _ _ OR) in FP. destruct FP as (dk' & pk' & ED' & EP' & _ & RP). destruct (PR id RP) as (pk2 & q & E2 & IN & GP & <-).
    destruct (Forall2_left _ _ _ _ PF IN) as (b & B & (q2 & q3 & G2 & G3 & EI & IX)). rewrite GP in G2. injection G2 as <-. rewrite K in IX. injection IX as ->. exact B.
Qed.
End Tag.

(* ---------------------------------------------------------------- reading the body keeps the frame *)
Definition type_at (D : document) (k : nat) (t : ElementType) : Prop := exists e, get_elementdata D k = Some e /\ e_type e = t.
Lemma type_at_le A B k t : doc_le A B -> type_at A k t -> type_at B k t.
Proof. intros L (e & G & T). destruct (doc_le_elem _ _ _ _ L G) as (e' & G' & K). exists e'. split; [exact G'|]. rewrite (ek_type _ _ K). exact T. Qed.
Lemma step_keeps fuel O D st ev D2 p : elements_step fuel O D st ev = (D2, Ok p) -> full_ok D -> full_ok D2 /\ doc_le D D2.
Proof.
  intros H F. pose proof (elements_step_prims normal fuel O [ev] D st ev (load_ok_normal O _) (or_introl eq_refl)) as Q. rewrite H in Q. cbn [fst] in Q. split; [eapply full_prims; eassumption|apply prims_doc_le, Q].
Qed.
Section Frozen.
Variables (fuel : nat) (O : oracle) (d D0 : document).
Hypotheses (F : full_ok d) (CO : consistent d) (VR : forall k e x, get_elementdata d k = Some e -> In x (e_attribs e) -> attr_in_range O x) (FH : features_home d) (AG : agree d D0).
Lemma own_of c e a own feats : get_elementdata d c = Some e -> tag_attributes O d e a -> reads_attributes O (e_type e) (read_attrs [] a) own feats -> read_own d e own feats.
Proof. intros G TA RA. eapply own_read; try eassumption. intros y Y. eapply VR; eassumption. Qed.
Lemma tag_stored c e a own feats P pe top D D1 k : get_elementdata d c = Some e -> tag_attributes O d e a -> reads_attributes O (e_type e) (read_attrs [] a) own feats -> textual own ->
  get_elementdata d P = Some pe -> e_parent e = Some P -> full_ok D -> frame D0 D -> type_at D top (e_type pe) ->
  store_add D (mkElem (e_type e) own [] None None) (Some top) = (D1, Ok k) -> frame D0 D1.
Proof.
  intros G TA RA TX GP PA FU FR (te & GT & TT) H. pose proof (own_of _ _ _ _ _ G TA RA) as OR. refine (frame_trans _ _ _ FR _). assert (AD : agree d D) by (eapply agree_frame; eassumption).
  refine (store_frame _ _ _ _ _ (proj1 FU) _ (ag_active _ _ AD) _ H); [exact TX|]. intros EN. apply (tag_encodable d e own feats [] OR) in EN.
  destruct (tag_names d D c e own feats [] (Some top) F G OR) with (2 := AD) (3 := EN) as (dk & dec & decD & _ & _ & _ & NM); [|eauto].
  intros dk dec ED GD FE. destruct (FH _ _ _ _ _ _ G FE PA GP ED GD) as (AT & SD). split; [exact SD|]. exists top, te. split; [reflexivity|]. split; [exact GT|]. rewrite TT. exact AT.
Qed.
Lemma start_frame c e a P pe top st l D D2 p : pinv D (top :: st) (EvStart NsFolia (et_as_str (e_type e)) (read_attrs [] a) :: l) -> get_elementdata d c = Some e -> tag_attributes O d e a -> get_elementdata d P = Some pe -> e_parent e = Some P -> full_ok D -> frame D0 D -> type_at D top (e_type pe) ->
  elements_step fuel O D (top :: st) (EvStart NsFolia (et_as_str (e_type e)) (read_attrs [] a)) = (D2, Ok p) -> exists k, p = PContinue (k :: top :: st) /\ frame D0 D2 /\ type_at D2 k (e_type e).
Proof.
  intros PI G TA GP PA FU FR TT H. destruct (start_step fuel O D D top st _ _ l D2 p FU (follows_refl D) PI H) as (t0 & own0 & fs0 & fl & X). cbv zeta in X. destruct X as (EP & ET0 & _ & _ & _ & _ & _ & SK & _).
  rewrite et_from_as in ET0. injection ET0 as <-. exists (sh_len D). split; [exact EP|]. split; [|unfold sh in SK; destruct (get_elementdata D2 (sh_len D)) as [ek|] eqn:GK; [|discriminate SK]; exists ek; split; [exact GK|injection SK as <- _; reflexivity]].
  clear SK EP fl own0 fs0. cbn [elements_step] in H. apply sbind_ok in H. destruct H as (dz & x & X & H). injection X as <- X. apply sbind_ok in H. destruct H as (D1 & key & S & H). apply map_err_ok in S.
  apply sbind_ok in H. destruct H as (D2' & u & A & H). injection H as -> <-. destruct (parse_elem_reads _ _ _ _ X) as (t & own & fs & ET & RA & EX & EF & TX & _). rewrite et_from_as in ET. injection ET as <-.
  pose proof (own_of _ _ _ _ _ G TA RA) as OR. rewrite (ow_feats _ _ _ _ OR) in EF. rewrite EF in A. cbn in A. injection A as <- _. rewrite EX in S. cbn [hd_error] in S. exact (tag_stored _ _ _ _ _ _ _ _ _ _ _ G TA RA TX GP PA FU FR TT S).
Qed.
Lemma empty_frame c e a P pe top st D D2 p : get_elementdata d c = Some e -> tag_attributes O d e a -> get_elementdata d P = Some pe -> e_parent e = Some P -> full_ok D -> frame D0 D -> type_at D top (e_type pe) ->
  elements_step fuel O D (top :: st) (EvEmpty NsFolia (et_as_str (e_type e)) (read_attrs [] a)) = (D2, Ok p) -> p = PContinue (top :: st) /\ frame D0 D2.
Proof.
  intros G TA GP PA FU FR TT H. cbn [elements_step] in H. apply sbind_ok in H. destruct H as (dz & x & X & H). injection X as <- X. apply sbind_ok in H. destruct H as (D1 & key & S & H). apply map_err_ok in S.
  apply sbind_ok in H. destruct H as (D3 & u & A & H). apply sbind_ok in H. destruct H as (D4 & v & B & H). apply sbind_ok in H. destruct H as (D5 & w & C & H). injection H as -> <-. split; [reflexivity|].
  destruct (parse_elem_reads _ _ _ _ X) as (t & own & fs & ET & RA & EX & EF & TX & _). rewrite et_from_as in ET. injection ET as <-.
  pose proof (own_of _ _ _ _ _ G TA RA) as OR. rewrite (ow_feats _ _ _ _ OR) in EF. rewrite EF in B. cbn in B. injection B as <- _. rewrite EX in S. cbn [hd_error] in S.
  assert (F1 : frame D0 D1) by (exact (tag_stored _ _ _ _ _ _ _ _ _ _ _ G TA RA TX GP PA FU FR TT S)). refine (frame_trans _ _ _ F1 _).
  pose proof (attach_meta D1 top key) as M1. rewrite A in M1. cbn [fst] in M1. pose proof (post_add_meta fuel D3 key (Some (rev (top :: st)))) as M2. rewrite C in M2. cbn [fst] in M2.
  apply frame_meta. eapply same_meta_trans; eassumption.
Qed.
Lemma end_frame key top st name D D2 p : frame D0 D -> elements_step fuel O D (key :: top :: st) (EvEnd NsFolia name) = (D2, Ok p) -> p = PContinue (top :: st) /\ frame D0 D2.
Proof.
  intros FR H. cbn [elements_step] in H. apply sbind_ok in H. destruct H as (d1 & u & A & H). destruct (get_elementdata d1 key) as [e|]; [|discriminate]. apply sbind_ok in H. destruct H as (dz & et & E & H). injection E as <- E.
  destruct (et_eqb (e_type e) et); [|discriminate]. apply sbind_ok in H. destruct H as (d2' & v & B & H). injection H as -> <-. split; [reflexivity|]. refine (frame_trans _ _ _ FR _).
  pose proof (post_add_meta fuel D key (Some (rev (top :: st)))) as M1. rewrite A in M1. cbn [fst] in M1. pose proof (attach_meta d1 top key) as M2. rewrite B in M2. cbn [fst] in M2.
  apply frame_meta. eapply same_meta_trans; eassumption.
Qed.
Lemma push_frame D st s mk : frame D0 D -> frame D0 (push_data D st s mk).
Proof.
  intros FR. refine (frame_trans _ _ _ FR _). unfold push_data. destruct (is_blank s); [apply frame_refl|]. destruct st as [|k st]; [apply frame_refl|]. apply frame_meta, upd_element_meta.
Qed.
Definition under (P : nat) (l : list datatype) : Prop := forall c, In (DElement c) l -> forall e, get_elementdata d c = Some e -> e_parent e = Some P.
Lemma under_data P pe : get_elementdata d P = Some pe -> under P (kept (e_data pe)).
Proof.
  intros G c I' e GE. apply filter_In in I'. destruct I' as (I' & _). destruct (CO P) as (_ & C). destruct (C c) as ((C1 & _) & _).
  assert (Q : parent_of d c = Some P). { apply C1. unfold children_of. rewrite G. apply in_child_keys, I'. } unfold parent_of in Q. rewrite GE in Q. exact Q.
Qed.
Ltac data_step IH XE UN := inversion XE; subst; match goal with H : parse_elements_loop _ _ _ _ (_ ++ _) = _, PI : pinv _ _ (_ ++ _), FU : full_ok _, FR : frame _ _, TT : type_at _ _ _, GP : get_elementdata _ _ = Some _ |- _ =>
  cbn [app] in H, PI; apply step_of in H; let D1 := fresh "D1" in let p := fresh "p" in let S := fresh "S" in destruct H as (D1 & p & S & H);
  let PI1 := fresh "PI1" in pose proof (elements_step_pinv _ _ _ _ _ _ _ _ PI S) as PI1; let FU1 := fresh "FU1" in let L1 := fresh "L1" in destruct (step_keeps _ _ _ _ _ _ _ S FU) as (FU1 & L1);
  cbn [elements_step] in S; injection S as <- <-; let D2 := fresh "D2" in
  destruct (IH _ _ GP UN _ ltac:(eassumption) _ _ _ _ _ FU1 (push_frame _ _ _ _ FR) PI1 (type_at_le _ _ _ _ L1 TT) H) as (D2 & ? & ? & ? & ? & ?);
  exists D2; repeat (split; [assumption|]); eapply doc_le_trans; eassumption end.
Theorem content_frozen l ns ks : nodes_of O d l ns ks -> forall P pe, get_elementdata d P = Some pe -> under P l -> forall ev, xml_events ns ev -> forall top st more D D', full_ok D -> frame D0 D ->
  pinv D (top :: st) (ev ++ more) -> type_at D top (e_type pe) -> parse_elements_loop fuel O D (top :: st) (ev ++ more) = (D', Ok tt) ->
  exists D1, parse_elements_loop fuel O D1 (top :: st) more = (D', Ok tt) /\ full_ok D1 /\ frame D0 D1 /\ pinv D1 (top :: st) more /\ doc_le D D1.
Proof.
  intros N. induction N as [|s l ns ks B N IH|s l ns ks B N IH|s l ns ks B N IH|c e a inside l ns ks1 ks G T N1 IH1 N2 IH2]; intros P pe GP UN ev XE top st more D D' FU FR PI TT H.
  - inversion XE; subst. exists D. split; [exact H|]. split; [exact FU|]. split; [exact FR|]. split; [exact PI|]. apply doc_le_refl.
  - data_step IH XE UN.
  - data_step IH XE (fun c I' => UN c (or_intror I')).
  - data_step IH XE (fun c I' => UN c (or_intror I')).
  - assert (PA : e_parent e = Some P) by (apply (UN c); [left; reflexivity|exact G]). assert (UN2 : under P l) by (intros c' I'; apply UN; right; exact I').
    inversion XE as [|nm at_ ins li rest m X1 X2 E1 E2|nm at_ rest m X2 E1 E2| | | | | |]; subst.
    + cbn [app] in H, PI. rewrite <- app_assoc in H, PI. cbn [app] in H, PI. apply step_of in H. destruct H as (D1 & p & S & H). pose proof (elements_step_pinv _ _ _ _ _ _ _ _ PI S) as PI1. destruct (step_keeps _ _ _ _ _ _ _ S FU) as (FU1 & L1).
      destruct (start_frame _ _ _ _ _ _ _ _ _ _ _ PI G T GP PA FU FR TT S) as (key & -> & FR1 & TK).
      destruct (IH1 c e G (under_data _ _ G) _ X1 key (top :: st) _ D1 D' FU1 FR1 PI1 TK H) as (D2 & H2 & FU2 & FR2 & PI2 & L2).
      apply step_of in H2. destruct H2 as (D3 & p & S3 & H3). pose proof (elements_step_pinv _ _ _ _ _ _ _ _ PI2 S3) as PI3. destruct (step_keeps _ _ _ _ _ _ _ S3 FU2) as (FU3 & L3). destruct (end_frame _ _ _ _ _ _ _ FR2 S3) as (-> & FR3).
      assert (L : doc_le D D3) by (eapply doc_le_trans; [exact L1|eapply doc_le_trans; eassumption]).
      destruct (IH2 P pe GP UN2 _ X2 top st more D3 D' FU3 FR3 PI3 (type_at_le _ _ _ _ L TT) H3) as (D4 & A1 & A2 & A3 & A4 & A5). exists D4. split; [exact A1|]. split; [exact A2|]. split; [exact A3|]. split; [exact A4|]. eapply doc_le_trans; eassumption.
    + cbn [app] in H, PI. apply step_of in H. destruct H as (D1 & p & S & H). pose proof (elements_step_pinv _ _ _ _ _ _ _ _ PI S) as PI1. destruct (step_keeps _ _ _ _ _ _ _ S FU) as (FU1 & L1).
      destruct (empty_frame _ _ _ _ _ _ _ _ _ _ G T GP PA FU FR TT S) as (-> & FR1).
      destruct (IH2 P pe GP UN2 _ X2 top st more D1 D' FU1 FR1 PI1 (type_at_le _ _ _ _ L1 TT) H) as (D4 & A1 & A2 & A3 & A4 & A5). exists D4. split; [exact A1|]. split; [exact A2|]. split; [exact A3|]. split; [exact A4|]. eapply doc_le_trans; eassumption.
Qed.
End Frozen.

Lemma store_names D e0 ctx dk dec D1 k x : doc_ok D -> textual (e_attribs e0) -> new_id D e0 -> doc_active D = None -> names D e0 ctx dk dec -> e_encodable e0 = true ->
  store_add D e0 ctx = (D1, Ok k) -> get_elementdata D1 k = Some x -> e_declaration_key x = Ok (Some dk).
Proof.
  intros W T N A NM EN H G. pose proof (store_add_cases D e0 ctx) as C. rewrite H in C. cbn [fst snd] in C.
  inversion C as [d' e1 id k' E I' J|d' e1 s E N' B IT IX|d' e1 E N' B|d' r E NR Q R1]; subst.
  - rewrite (N _ I') in J. discriminate.
  - destruct (encode_names _ _ _ _ _ _ _ W T A NM EN E) as (_ & K). unfold get_elementdata in G. cbn [doc_elements doc_with_elements] in G. rewrite (st_get_snoc _ _ _ _ IT), Nat.eqb_refl in G. injection G as <-. exact K.
  - destruct r; discriminate || (exfalso; eapply NR; reflexivity).
Qed.
(* the attributes of an element in the loaded document, unless it is a layer that took them from its content *)
Lemma tag_attribs dA dB d t own data ctx k e : full_ok dA -> new_id dA (mkElem t own data None None) -> textual own -> store_add dA (mkElem t own data None None) ctx = (dB, Ok k) -> doc_le dB d ->
  get_elementdata d k = Some e -> ~ unnamed_layer t own ->
  exists n x, get_elementdata dB k = Some x /\ e_attribs x = filter (fun a => negb (a_encodable a)) own ++ refs n /\ e_attribs e = filter (fun a => negb (a_encodable a)) own ++ refs n /\ enc_case dA (mkElem t own data None None) ctx dB n.
Proof.
  intros FA NI T S LE G NL. destruct (store_add_spec dA (mkElem t own data None None) ctx dB k FA T NI S) as (n & GB & RO & EC & AB & PB). cbn [e_type e_attribs e_data e_parent] in GB.
  destruct (doc_le_elem _ _ _ _ LE GB) as (e' & G' & [K1 K2 K3]). rewrite G in G'. injection G' as <-. cbn [e_type e_attribs] in K1, K3. eexists n, _. split; [exact GB|]. split; [reflexivity|]. split; [|exact EC].
  destruct K3 as [K3|((RL & _) & NS)]; [exact K3|]. exfalso. rewrite K1 in RL. destruct (named_layer _ _ T NL RL) as (y & I' & X). destruct (layer_annotationtype _ RL) as (a & AT).
  pose proof (in_encodable (mkElem t own data None None) _ I' X) as E.
  destruct EC as [EN|t' dk dec EN AT' DS _ _ _ _|pk parent t' dk dec EN FT|EN AT']; try congruence.
  - unfold e_has_attrib in NS. cbn [e_attribs] in NS. rewrite existsb_app in NS. apply orb_false_iff in NS. destruct NS as (_ & NS). unfold refs in NS. rewrite (ds_dec _ _ _ _ _ _ _ DS) in NS. discriminate.
  - cbn in FT. rewrite FT in AT. discriminate.
  - cbn in AT'. congruence.
Qed.
Lemma agree_sole_processor d D dk dec decD : agree d D -> get_declaration d dk = Some dec -> get_declaration D dk = Some decD -> forall b, d_processors decD = [b] <-> exists a, d_processors dec = [a] /\ same_id d D a b.
Proof.
  intros AG G1 G2 b. destruct (ag_some _ _ AG _ _ G1) as (y & GY & _ & _ & PF). rewrite G2 in GY. injection GY as <-. split.
  - intros E. rewrite E in PF. inversion PF as [|x0 b0 l m X M E1 E2]; subst. inversion M; subst. eauto.
  - intros (a & E & SI). rewrite E in PF. inversion PF as [|x0 b0 l m X M E1 E2]; subst. inversion M; subst. destruct X as (p1 & q1 & GP1 & _ & _ & I1), SI as (p2 & q2 & GP2 & _ & _ & I2). congruence.
Qed.
Section References.
Variables (d dA dB d' : document) (k : nat) (e : elementdata) (own : list Attribute) (feats : list (string * string)) (data : list datatype) (ctx : option nat) (k' : nat) (e' : elementdata).
Let e0 := mkElem (e_type e) own data None None.
Hypotheses (F : full_ok d) (G : get_elementdata d k = Some e) (OR : read_own d e own feats) (TX : textual own).
Hypothesis HOME : forall dk dec, r_declaration_key e = Ok (Some dk) -> get_declaration d dk = Some dec -> e_type e = ET_Feature -> 
  (sole_declaration d dk \/ d_set dec = None) /\ exists pk parent, ctx = Some pk /\ get_elementdata dA pk = Some parent /\ et_annotationtype (e_type parent) = Some (d_type dec).
Hypotheses (FA : full_ok dA) (NI : new_id dA e0) (AA : agree d dA) (ST : store_add dA e0 ctx = (dB, Ok k')) (LE : doc_le dB d') (PR : doc_procs d' = doc_procs dB) (AD : agree d d')
  (G' : get_elementdata d' k' = Some e') (KA : keeps_attributes d' (e_type e) own k').
Lemma unnamed_references : unnamed_layer (e_type e) own -> same_references d d' e e'.
Proof.
  intros UL. assert (NM : ~ marked_tag d e). { intros M. apply (tag_encodable d e own feats data OR) in M. apply existsb_exists in M. destruct M as (x & I' & X). apply UL in I'. destruct x; discriminate. }
  destruct (KA e' G') as (KL & _). destruct (KL UL) as [E|(dk & dec & E & GD & AT)].
  - right. left. split; [exact NM|]. assert (PL : Forall plain own). { apply Forall_forall. intros x I'. pose proof (proj2 UL _ I') as Q. pose proof (TX _ I') as Z. split; destruct x; try reflexivity; discriminate. }
    assert (AE : e_attribs e' = own ++ refs no_refs) by (cbn; rewrite app_nil_r; exact E). rewrite (rep_dec e' _ _ AE PL), (rep_set d' e' _ _ AE PL), (rep_proc d' e' _ _ AE PL). auto.
  - left. split; [split; [apply UL|exact NM]|]. assert (AE : e_attribs e' = [] ++ refs (mkEnc (Some dk) None None None false)) by exact E.
    assert (PL : Forall plain []) by constructor. rewrite (rep_proc d' e' _ _ AE PL), (rep_dec e' _ _ AE PL), (rep_set d' e' _ _ AE PL). split; [reflexivity|]. exists dk. split; [reflexivity|].
    intros dk0 E0 (dec0 & G0 & SO). destruct F as (_ & _ & _ & EO). destruct (EO _ _ G) as (p & n & AE0 & PL0 & RO). cbn in AE0. rewrite (rep_set d e p n AE0 PL0). rewrite (rep_dec e p n AE0 PL0) in E0. injection E0 as E0.
    destruct (ro_dec _ _ _ RO _ E0) as (dec1 & G1 & T1). rewrite G0 in G1. injection G1 as <-. specialize (T1 _ AT). destruct (get_declaration d dk) as [y|] eqn:GY; [|rewrite (ag_none _ _ AD _ GY) in GD; discriminate].
    destruct (ag_some _ _ AD _ _ GY) as (z & GZ & TZ & SZ & _). rewrite GD in GZ. injection GZ as <-. assert (dk = dk0) by (apply (SO dk y GY); rewrite T1; symmetry; exact TZ). subst dk0. split; [reflexivity|]. cbn [en_dec obind]. rewrite GD, E0. cbn [obind]. rewrite G0. rewrite GY in G0. injection G0 as <-. rewrite SZ. reflexivity.
Qed.
Lemma references_same : same_references d d' e e'.
Proof.
  destruct (unnamed_layer_dec (e_type e) own) as [NL|NL]; [apply unnamed_references, NL|].
  right. destruct (tag_attribs _ _ _ _ _ _ _ _ _ FA NI TX ST LE G' NL) as (n & x & GB & AB & AE & EC). fold e0 in EC. pose proof (plain_filter _ TX) as PL.
  assert (MK : e_encodable e0 = true <-> marked_tag d e) by (apply (tag_encodable d e own feats data OR)).
  destruct (e_encodable e0) eqn:EN.
  2:{ left. split; [intros M; apply MK in M; discriminate|]. destruct EC as [_ _ ->| | |]; try congruence. rewrite (rep_dec e' _ _ AE PL), (rep_set d' e' _ _ AE PL), (rep_proc d' e' _ _ AE PL). auto. }
  right. assert (M : marked_tag d e) by (apply MK; reflexivity). split; [exact M|].
  destruct (tag_names d dA k e own feats data ctx F G OR HOME AA M) as (dk & dec & decA & ED & GD & GA & NM). fold e0 in NM.
  pose proof (store_names dA e0 ctx dk decA dB k' x (proj1 FA) TX NI (ag_active _ _ AA) NM EN ST GB) as EDN.
  assert (EN2 : en_dec n = Some dk). { pose proof (shape_dec (e_type x) _ n (e_data x) (e_key x) (e_parent x) PL) as Q. rewrite <- AB in Q. destruct x; cbn in *. congruence. }
  assert (FR : frame dA dB) by (refine (store_frame _ _ _ _ _ (proj1 FA) _ (ag_active _ _ AA) _ ST); [exact TX|eauto]).
  destruct (marked_dec d k e F G M) as (dk2 & dec2 & ED2 & GD2 & RS & TD & KI & PRO). assert (dk2 = dk) by congruence. subst dk2. assert (dec2 = dec) by congruence. subst dec2.
  destruct (ag_some _ _ AD _ _ GD) as (decD & GDD & _ & SD & _).
  split; [rewrite (rep_dec e' _ _ AE PL), ED, EN2; reflexivity|]. split; [rewrite (rep_set d' e' _ _ AE PL), EN2; cbn [obind]; rewrite GDD, RS, <- SD; reflexivity|].
  assert (GP : forall j, get_processor d' j = get_processor dA j) by (intros j; unfold get_processor; rewrite PR, (fr_procs _ _ FR); reflexivity).
  assert (AB' : agree d dB) by exact (agree_frame _ _ _ AA FR).
  set (o := option_map pr_id (obind (en_proc n) (get_processor d'))).
  enough (Q : forall id, o = Some id <-> read_processor d e id).
  { split; [|exists o; split; [apply (rep_proc d' e' _ _ AE PL)|exact Q]]. intros NF id RP. rewrite (rep_proc d' e' _ _ AE PL). fold o. f_equal. apply Q.
    destruct (PRO id RP) as (pk & q & EP & IN & GQ & EI). assert (SP : sole_processor d dk pk \/ ~ sole_processor d dk pk).
    { unfold sole_processor. destruct (list_eq_dec Nat.eq_dec (d_processors dec) [pk]) as [E|E]; [left; exists dec; auto|right; intros (dz & GZ & EZ); congruence]. }
    destruct SP as [SP|SP]; [right; split; [exact NF|]; exists dk, pk, q; auto|left; exists dk, pk; auto]. }
  intros id. unfold o. destruct (first_pick pick_processor own) as [id0|] eqn:FP.
  - assert (SH : shows_processor d e id0) by (apply (ow_proc _ _ _ _ OR), pick_in_processor, FP). pose proof SH as (dk2 & pk & ED3 & EP & NSP & RP). destruct (PRO id0 RP) as (pk2 & q & EP2 & IN & GQ & EI).
    assert (pk2 = pk) by congruence. subst pk2. assert (dk2 = dk) by congruence. subst dk2. destruct (ag_some _ _ AA _ _ GD) as (y & GY & _ & _ & PF). destruct (Forall2_left _ _ _ _ PF IN) as (b & B & (q2 & q3 & G2 & G3 & EI2 & IX)).
    rewrite GQ in G2. injection G2 as <-. rewrite EI in *.
    assert (EB : en_proc n = Some b).
    { destruct EC as [Q|t' dk' dec1 _ AT DS _ _ P1 _|pk' parent t' dk' dec1 _ FT _ _ _ DS _ P1 _|_ AT NF]; [congruence|apply (P1 id0); assumption|apply (P1 id0); assumption|]. cbn in AT, NF. destruct KI; congruence. }
    rewrite EB. cbn [obind]. rewrite GP, G3. cbn [option_map]. rewrite EI2. split.
    + intros E. injection E as <-. left. exact SH.
    + intros [(dk2 & pk2 & _ & _ & _ & RP2)|(_ & dk2 & pk2 & q4 & ED4 & (dz & GZ & EZ) & _)]; [congruence|]. exfalso. apply NSP. exists dec. split; [exact GD|]. assert (dk2 = dk) by congruence. subst dk2. assert (dz = dec) by congruence. subst dz.
      rewrite EZ in IN |- *. destruct IN as [->|[]]. reflexivity.
  - assert (NSH : forall i, ~ shows_processor d e i). { intros i SH. apply (ow_proc _ _ _ _ OR) in SH. apply (pick_processor_in _ _ (ow_unique _ _ _ _ OR)) in SH. congruence. }
    assert (NP : forall i, first_pick pick_processor (e_attribs e0) = Some i -> get_processor_key_by_id dA i = None) by (intros i Q; cbn in Q; congruence).
    destruct EC as [Q|t' dk' dec1 _ AT DS _ _ _ P2|pk' parent t' dk' dec1 _ FT _ _ _ DS _ _ P2|_ AT NF]; [congruence| | |cbn in AT, NF; destruct KI; congruence].
    + rewrite (P2 NP), (ag_active _ _ AA). cbn [e_type e0] in AT. assert (NF : e_type e <> ET_Feature) by (intros Q; rewrite Q in AT; discriminate AT).
      assert (dk' = dk) by (pose proof (ds_dec _ _ _ _ _ _ _ DS); congruence). subst dk'. pose proof (ds_get _ _ _ _ _ _ _ DS) as G1. pose proof (agree_sole_processor _ _ _ _ _ AB' GD G1) as AS. split.
      * intros E. destruct (d_processors dec1) as [|b [|]]; try discriminate E. destruct (proj1 (AS b) eq_refl) as (a & EA & (q & q3 & G2 & G3 & EI2 & IX)). right. split; [exact NF|]. exists dk, a, q. split; [exact ED|]. split; [exists dec; auto|]. split; [exact G2|].
        cbn [obind] in E. rewrite GP in E. assert (G3' : get_processor dA b = Some q3) by (unfold get_processor in *; rewrite <- (fr_procs _ _ FR); exact G3). rewrite G3' in E. cbn in E. congruence.
      * intros [Q|(_ & dk2 & a & q & ED4 & (dz & GZ & EZ) & GQ & EI)]; [destruct (NSH _ Q)|]. assert (dk2 = dk) by congruence. subst dk2. assert (dz = dec) by congruence. subst dz.
        destruct (ag_some _ _ AB' _ _ GD) as (y & GY & _ & _ & PF). rewrite G1 in GY. injection GY as <-. rewrite EZ in PF. inversion PF as [|x0 b l m (q2 & q3 & G2 & G3 & EI2 & IX) MM E1 E2]; subst. inversion MM; subst.
        cbn [obind]. rewrite GP. assert (G3' : get_processor dA b = Some q3) by (unfold get_processor in *; rewrite <- (fr_procs _ _ FR); exact G3). rewrite G3'. cbn. congruence.
    + rewrite (P2 NP). cbn. split; [discriminate|]. cbn in FT. intros [Q|(NF & _)]; [destruct (NSH _ Q)|contradiction].
Qed.
End References.

(* ---------------------------------------------------------------- no processor is active after the metadata *)
Lemma beside_active a b : beside a b -> doc_active b = doc_active a.
Proof. unfold beside. intros ->. reflexivity. Qed.
Lemma meta_start_active d s ns n a d1 s1 : meta_start d s ns n a = (d1, Ok s1) -> doc_active d1 = doc_active d.
Proof.
  unfold meta_start. destruct ns; try discriminate.
  destruct (String.eqb n "metadata"); [intros H; apply sbind_ok in H; destruct H as (d2 & m & E & H); injection E as <- _; injection H as <- _; reflexivity|].
  destruct (String.eqb n "annotations"); [intros H; injection H as <- _; reflexivity|]. destruct (String.eqb n "provenance"); [intros H; injection H as <- _; reflexivity|].
  destruct (String.eqb n "submetadata"); [intros H; apply sbind_ok in H; destruct H as (d2 & m & E & H); injection E as <- _; destruct (fst m); [injection H as <- _; reflexivity|discriminate]|].
  destruct (String.eqb n "meta"); [intros H; apply sbind_ok in H; destruct H as (d2 & m & E & H); injection E as <- _; injection H as <- _; reflexivity|].
  destruct (String.eqb n "processor" && ms_prov s).
  - intros H. apply sbind_ok in H. destruct H as (d2 & p & E & H). injection E as <- E. apply sbind_ok in H. destruct H as (d3 & k & E3 & H). injection H as <- _. apply beside_active. eapply beside_ok; [exact E3|apply beside_parsed_processor].
  - destruct (ms_decls s); [|discriminate]. intros H. apply sbind_ok in H. destruct H as (d2 & p & E & H). injection E as <- E. apply sbind_ok in H. destruct H as (d3 & k & E3 & H). injection H as <- _.
    apply map_err_ok in E3. apply beside_active. eapply beside_ok; [exact E3|apply beside_declaration].
Qed.
Lemma meta_end_active d s ns n : doc_active (fst (meta_end d s ns n)) = doc_active d.
Proof.
  unfold meta_end. destruct ns; try reflexivity. destruct (String.eqb n "submetadata"); [reflexivity|]. destruct (String.eqb n "metadata"); [reflexivity|]. destruct (String.eqb n "annotations"); [reflexivity|].
  destruct (String.eqb n "provenance"); [apply beside_active, beside_annotators|]. destruct (String.eqb n "processor" && ms_prov s); [reflexivity|].
  destruct (String.eqb n "meta"); [cbn [fst]; unfold meta_close; repeat match goal with |- context [match ?x with _ => _ end] => destruct x end; reflexivity|].
  destruct (String.eqb n "annotator" && ms_decls s); [reflexivity|]. destruct (ms_decls s); reflexivity.
Qed.
Lemma parse_metadata_active l : forall d s D R, parse_metadata d s l = (D, Ok R) -> doc_active D = doc_active d.
Proof.
  induction l as [|ev l IH]; intros d s D R H; [discriminate|]. cbn [parse_metadata] in H. destruct ev as [ns n a|ns n a|ns n|[t|]|t|t| |]; try discriminate; try (eapply IH; exact H).
  - apply sbind_ok in H. destruct H as (d1 & s1 & M & H). rewrite (IH _ _ _ _ H). eapply meta_start_active, M.
  - apply sbind_ok in H. destruct H as (d1 & s1 & M & H). rewrite (IH _ _ _ _ H). destruct ns; try (injection M as <- _; reflexivity). apply beside_active. eapply quiet_empty, M.
  - destruct (meta_end d s ns n) as [d1 [s1|]] eqn:M; pose proof (meta_end_active d s ns n) as Q; rewrite M in Q; cbn [fst] in Q; [rewrite (IH _ _ _ _ H); exact Q|injection H as <- _; exact Q].
Qed.

(* ---------------------------------------------------------------- the whole tree *)
(* like same_made (RoundTree.v), and the parent has the right type *)
Lemma same_made_under O d d' (good : nat -> ElementType -> list Attribute -> nat -> Prop) (same : elementdata -> elementdata -> Prop) : consistent d ->
  (forall P pe p c e a own feats k' e', get_elementdata d P = Some pe -> type_at d' p (e_type pe) -> get_elementdata d c = Some e -> e_parent e = Some P -> tag_attributes O d e a ->
     reads_attributes O (e_type e) (read_attrs [] a) own feats -> good p (e_type e) own k' -> get_elementdata d' k' = Some e' -> e_type e' = e_type e -> feats = [] /\ same e e') ->
  forall l ns ks, nodes_of O d l ns ks -> forall P pe p l' n, get_elementdata d P = Some pe -> under d P l -> type_at d' p (e_type pe) -> made O d' good p ns l' n -> same_content same d d' p l l' n /\ n = length ks.
Proof.
  intros CO HG l ns ks N. induction N as [|s l ns ks B N IH|s l ns ks B N IH|s l ns ks B N IH|c e a inside l ns ks1 ks G T N1 IH1 N2 IH2]; intros P pe p l' n GP UN TP M.
  - inversion M; subst. split; [constructor|reflexivity].
  - inversion M; subst; [contradiction|]. eapply IH; eassumption.
  - assert (UN2 : under d P l) by (intros c I'; apply UN; right; exact I'). inversion M; subst; [|contradiction]. destruct (IH P pe p _ _ GP UN2 TP ltac:(eassumption)) as (S1 & ->). split; [constructor; exact S1|reflexivity].
  - assert (UN2 : under d P l) by (intros c I'; apply UN; right; exact I'). inversion M; subst; [|contradiction]. destruct (IH P pe p _ _ GP UN2 TP ltac:(eassumption)) as (S1 & ->). split; [constructor; exact S1|reflexivity].
  - assert (UN2 : under d P l) by (intros c' I'; apply UN; right; exact I'). assert (PA : e_parent e = Some P) by (apply (UN c); [left; reflexivity|exact G]).
    inversion M as [|p0 nm at0 ins rs t own feats k fl il l0 fn inn n0 ET RA EL GO MF MI MR| | | | | | | |]; subst. rewrite et_from_as in ET. injection ET as <-.
    destruct EL as (e' & G' & TY & PA' & CO'). destruct (HG _ _ _ _ _ _ _ _ _ _ GP TP G PA T RA GO G' TY) as (-> & SA). inversion MF; subst. cbn [app] in CO'.
    assert (TK : type_at d' k (e_type e)) by (exists e'; auto).
    destruct (IH1 c e _ _ _ G (under_data d CO c e G) TK MI) as (S1 & ->). destruct (IH2 _ _ _ _ _ GP UN2 TP MR) as (S2 & ->). split; [|cbn [length]; rewrite app_length; lia].
    change (S (0 + length ks1 + length ks)) with (S (length ks1) + length ks). constructor; [|exact S2]. econstructor; [exact G|exact G'|exact TY|exact PA'|exact SA|]. rewrite CO'. exact S1.
Qed.
