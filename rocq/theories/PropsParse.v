(* Properties C53, C58: what loading a document builds.
   The XML document is given as the events of a namespace-aware reader (Xml.v). [xml_events nodes ev] (ParseSpec.v):
   ev are the events of the XML content nodes. [made O d good p nodes l n]: the content l of element p of document d
   is what the nodes describe; good is what is required of the attributes of each element. *)
From Coq Require Import String List Bool Arith NArith Lia.
From Verif Require Import Base BaseFacts Types TypesFacts SpecTable Attrib AttribFacts Element Store StoreFacts Metadata Document Select DocOps Xml Parser History Spec FrameFacts InvFacts DocFacts StoreThms InternFacts EncodeFacts PropsEncode LinkFacts TreeFacts ForestFacts NoPanic Examples ParseSpec ParseFacts.
Import ListNotations.
Open Scope list_scope.

(* ---------------------------------------------------------------- the parts of a document *)
Definition starts (ev : event) : Prop := exists ns name attrs, ev = EvStart ns name attrs.
Definition body_tag (name : string) (t : ElementType) : Prop := (name = "text"%string /\ t = ET_Text) \/ (name = "speech"%string /\ t = ET_Speech).
(* [document_events prolog rattrs head gap name attrs ev]: a FoLiA document whose metadata is head, with body tag name *)
Definition document_events (prolog : list event) (rattrs : xattrs) (head gap : list event) (name : string) (attrs : xattrs) (ev : list event) : list event :=
  prolog ++ EvStart NsFolia "FoLiA" rattrs :: head ++ EvEnd NsFolia "metadata" :: gap ++ EvStart NsFolia name attrs :: ev.

Lemma root_found prolog rattrs rest d d' r : (forall ev, In ev prolog -> ~ starts ev) -> parse_root d (prolog ++ EvStart NsFolia "FoLiA" rattrs :: rest) = Ok (d', r) ->
  root_attrs d rattrs = Ok d' /\ r = rest.
Proof.
  induction prolog as [|ev l IH]; intros N H.
  - cbn in H. apply rbind_ok in H. destruct H as (d1 & A & B). injection B as <- <-. auto.
  - assert (N1 : forall ev, In ev l -> ~ starts ev) by (intros; apply N; right; assumption). pose proof (N ev (or_introl eq_refl)) as NE.
    cbn [app parse_root] in H. destruct ev; try (apply IH; assumption); try discriminate. exfalso. apply NE. eexists _, _, _. reflexivity.
Qed.
Lemma metadata_found head rest : (~ In (EvEnd NsFolia "metadata") head) -> forall d s d' r, parse_metadata d s (head ++ EvEnd NsFolia "metadata" :: rest) = (d', Ok r) ->
  r = rest /\ parse_metadata d s (head ++ [EvEnd NsFolia "metadata"]) = (d', Ok []).
Proof.
  induction head as [|ev l IH]; intros N d s d' r H.
  - cbn in H |- *. injection H as <- <-. auto.
  - assert (N1 : ~ In (EvEnd NsFolia "metadata") l) by (intros X; apply N; right; exact X).
    assert (NE : ev <> EvEnd NsFolia "metadata") by (intros X; apply N; left; exact X). specialize (IH N1).
    cbn [app parse_metadata] in H |- *. destruct ev as [ns name attrs|ns name attrs|ns name|[t|]|t|t| |]; try (apply IH; assumption); try discriminate.
    + apply sbind_ok in H. destruct H as (d1 & s1 & E & H). rewrite E. cbn [sbind]. apply IH, H.
    + apply sbind_ok in H. destruct H as (d1 & s1 & E & H). rewrite E. cbn [sbind]. apply IH, H.
    + destruct (meta_end d s ns name) as [d1 [s1|]] eqn:E; [apply IH, H|]. exfalso. apply NE. unfold meta_end in E. destruct ns; try discriminate.
      destruct (name =? "submetadata")%string; [discriminate|]. destruct (String.eqb_spec name "metadata") as [->|]; [reflexivity|].
      destruct (name =? "annotations")%string; [discriminate|]. destruct (name =? "provenance")%string; [discriminate|].
      destruct ((name =? "processor")%string && ms_prov s); [discriminate|]. destruct (name =? "meta")%string; [discriminate|].
      destruct ((name =? "annotator")%string && ms_decls s); [discriminate|]. destruct (ms_decls s); discriminate.
Qed.
Lemma body_found O gap name attrs rest b r : (forall ev, In ev gap -> ~ starts ev) -> parse_body O (gap ++ EvStart NsFolia name attrs :: rest) = Ok (Some b, r) ->
  exists t x, body_tag name t /\ parse_attributes O t attrs = Ok x /\ b = mkElem t (fst x) [] None None /\ r = rest.
Proof.
  induction gap as [|ev l IH]; intros N H.
  - cbn in H. destruct (String.eqb_spec name "text") as [->|].
    + destruct (parse_attributes O ET_Text attrs) as [x| | |] eqn:E; try discriminate. injection H as <- <-. exists ET_Text, x. unfold body_tag. auto.
    + destruct (String.eqb_spec name "speech") as [->|]; [|discriminate].
      destruct (parse_attributes O ET_Speech attrs) as [x| | |] eqn:E; try discriminate. injection H as <- <-. exists ET_Speech, x. unfold body_tag. auto.
  - assert (N1 : forall ev, In ev l -> ~ starts ev) by (intros; apply N; right; assumption). pose proof (N ev (or_introl eq_refl)) as NE.
    cbn [app parse_body] in H. destruct ev; try (apply IH; assumption); try discriminate. exfalso. apply NE. eexists _, _, _. reflexivity.
Qed.
Definition blank_doc (p : docprops) : document := mkDoc "untitled" FOLIAVERSION None st_empty st_empty [] st_empty meta_default [] None (dp_autodeclare p).
Record document_parts (fuel : nat) (O : oracle) (p : docprops) (rattrs : xattrs) (head : list event) (name : string) (attrs : xattrs) (ev : list event) (d : document)
  (d1 d2 : document) (t : ElementType) (x : list Attribute * list elementdata) (d3 d4 : document) (k : nat) : Prop := {
  dp_root : root_attrs (blank_doc p) rattrs = Ok d1;
  dp_metadata : parse_metadata d1 ms_init (head ++ [EvEnd NsFolia "metadata"]) = (d2, Ok []);
  dp_body : body_tag name t;
  dp_attrs : parse_attributes O t attrs = Ok x;
  dp_store : store_add d2 (mkElem t (fst x) [] None None) None = (d3, Ok k);
  dp_apply : apply_properties d3 p = (d4, Ok tt);
  dp_elements : parse_elements fuel O d4 ev = (d, Ok tt) }.
Lemma parse_document_parts fuel O p prolog rattrs head gap name attrs ev d :
  (forall ev, In ev prolog -> ~ starts ev) -> ~ In (EvEnd NsFolia "metadata") head -> (forall ev, In ev gap -> ~ starts ev) ->
  parse_document fuel O p (document_events prolog rattrs head gap name attrs ev) = Ok d ->
  exists d1 d2 t x d3 d4 k, document_parts fuel O p rattrs head name attrs ev d d1 d2 t x d3 d4 k.
Proof.
  intros NP NH NG H. unfold parse_document in H. apply rbind_ok in H. destruct H as ([d1 l1] & R & H). apply root_found in R; [|exact NP]. destruct R as (R & ->).
  destruct (parse_metadata d1 ms_init _) as [d2 r2] eqn:M. apply rbind_ok in H. destruct H as (l2 & E2 & H). subst r2. apply metadata_found in M; [|exact NH]. destruct M as (-> & M).
  apply rbind_ok in H. destruct H as ([[body|] l3] & B & H); [|discriminate]. apply body_found in B; [|exact NG]. destruct B as (t & x & BT & PA & -> & ->).
  match type of H with (let (_, _) := ?x in _) = _ => destruct x as [d5 r5] eqn:E end.
  apply rbind_ok in H. destruct H as (u & -> & H). injection H as <-. destruct u.
  apply sbind_ok in E. destruct E as (d3 & k & E3 & E). apply map_err_ok in E3. apply sbind_ok in E. destruct E as (d4 & u & E4 & E). apply map_err_ok in E4. destruct u.
  exists d1, d2, t, x, d3, d4, k. split; assumption.
Qed.

(* ---------------------------------------------------------------- attributes of the elements *)
(* Element k was made by a tag of type t with attributes own. It reports them: all attributes that are not set, class,
   subset or processor are there, in order; set, class and subset are reported by their accessors (class and subset as
   long as no vocabulary is full), and no other class is reported.
   Layers whose tag names none of set, class, subset and processor either keep their attributes or have them replaced by a
   reference to a declaration of their annotation type. *)
Definition keeps_attributes (d : document) (t : ElementType) (own : list Attribute) (k : nat) : Prop :=
  forall e, get_elementdata d k = Some e ->
  (unnamed_layer t own -> e_attribs e = own \/
     exists dk dec, e_attribs e = [A_DeclarationRef dk] /\ get_declaration d dk = Some dec /\ et_annotationtype t = Some (d_type dec)) /\
  (~ unnamed_layer t own ->
  filter other (e_attribs e) = filter other own /\
  (unique_types own -> (exists at', et_annotationtype t = Some at') \/ (t = ET_Feature /\ exists x, In (A_Subset x) own) ->
    (forall s, In (A_Set s) own -> r_set d e = Ok (Some s)) /\
    (room d -> forall c, In (A_Class c) own -> r_class d e = Ok (Some c)) /\
    (room d -> forall x, t = ET_Feature -> In (A_Subset x) own -> r_subset d e = Ok (Some x)) /\
    (forall c, t <> ET_Feature -> r_class d e = Ok (Some c) -> In (A_Class c) own))).
(* it reports the processor of the tag if the document has that processor *)
Definition keeps_processor (d : document) (t : ElementType) (own : list Attribute) (k : nat) : Prop :=
  forall e id, get_elementdata d k = Some e -> ~ unnamed_layer t own -> unique_types own ->
  (exists at', et_annotationtype t = Some at') \/ (t = ET_Feature /\ exists x, In (A_Subset x) own) ->
  In (A_Processor id) own -> get_processor_key_by_id d id <> None -> r_processor d e = Ok (Some id).

Lemma texts_not_nested e c : (forall x, In x (e_data e) -> exists s, x = DText s) -> ~ nested c e.
Proof. intros H N. destruct N as [c e I|x c e _ I]; destruct (H _ I); discriminate. Qed.
Lemma texts_built e : (forall x, In x (e_data e) -> exists s, x = DText s) -> textual (e_attribs e) -> built e.
Proof. intros H T. constructor; [exact T|]. intros c I. destruct (H _ I); discriminate. Qed.
Lemma refs_decodable n a : In a (refs n) -> decodable a = true.
Proof.
  intros I. unfold refs, opt_attr in I. rewrite !in_app_iff in I.
  destruct (en_dec n), (en_class n), (en_proc n), (en_subset n); cbn in I; decompose [or] I; subst; try reflexivity; contradiction.
Qed.

Lemma tag_kept dA dB d t own data ctx k : full_ok dA -> new_id dA (mkElem t own data None None) -> (forall x, In x data -> exists s, x = DText s) ->
  textual own -> store_add dA (mkElem t own data None None) ctx = (dB, Ok k) -> doc_le dB d -> full_ok d -> keeps_attributes d t own k /\ (doc_procs d = doc_procs dB -> keeps_processor d t own k).
Proof.
  intros FA NI ED T S LE FD.
  enough (Q : forall e, get_elementdata d k = Some e -> ~ unnamed_layer t own ->
    filter other (e_attribs e) = filter other own /\
    (unique_types own -> (exists at', et_annotationtype t = Some at') \/ (t = ET_Feature /\ exists x, In (A_Subset x) own) ->
      (forall s, In (A_Set s) own -> r_set d e = Ok (Some s)) /\
      (room d -> forall c, In (A_Class c) own -> r_class d e = Ok (Some c)) /\
      (room d -> forall x, t = ET_Feature -> In (A_Subset x) own -> r_subset d e = Ok (Some x)) /\
      (doc_procs d = doc_procs dB -> forall id, In (A_Processor id) own -> get_processor_key_by_id d id <> None -> r_processor d e = Ok (Some id)) /\
      (forall c, t <> ET_Feature -> r_class d e = Ok (Some c) -> In (A_Class c) own))).
  { split.
    - intros e G. split.
      { intros UL. destruct (store_add_spec dA (mkElem t own data None None) ctx dB k FA T NI S) as (n & GB & _ & EC & _). cbn [e_type e_attribs e_data e_parent] in GB.
        destruct (doc_le_elem _ _ _ _ LE GB) as (e' & G' & [K1 K2 K3]). rewrite G in G'. injection G' as <-. cbn [e_type e_attribs] in K1, K3. destruct UL as (L & UL).
        destruct K3 as [K3|((RL & dk & K3) & _)].
        - left. assert (EN : e_encodable (mkElem t own data None None) = false).
          { destruct (e_encodable _) eqn:X; [|reflexivity]. apply existsb_exists in X. destruct X as (a & I & X). specialize (UL a I). destruct a; discriminate. }
          assert (HN : n = no_refs) by (destruct EC as [_ _ Hn|? ? ? EN1|? ? ? ? ? EN1|EN1]; [exact Hn|congruence..]). rewrite K3, HN. cbn. rewrite app_nil_r.
          clear - UL. induction own as [|a l IH]; [reflexivity|]. cbn [filter]. assert (X : a_encodable a = false) by (specialize (UL a (or_introl eq_refl)); destruct a; try reflexivity; discriminate). rewrite X. cbn [negb]. f_equal. apply IH. intros b J. apply UL. right. exact J.
        - right. destruct FD as (_ & _ & _ & EO). destruct (EO _ _ G) as (p & m & AE & PL & RO). cbn in AE. destruct (layer_annotationtype _ RL) as (a & AT).
          pose proof (rep_dec e p m AE PL) as RD. unfold r_declaration_key, e_declaration_key in RD. rewrite K3 in RD. cbn in RD. injection RD as RD. symmetry in RD.
          destruct (ro_dec _ _ _ RO _ RD) as (dec & GD & TD). exists dk, dec. split; [exact K3|]. split; [exact GD|]. rewrite (TD a AT). congruence. }
      intros NL. destruct (Q e G NL) as (A & B). split; [exact A|]. intros U AN. destruct (B U AN) as (B1 & B2 & B3 & _ & B5). auto.
    - intros AS e id G NL U AN. destruct (Q e G NL) as (_ & B). destruct (B U AN) as (_ & _ & _ & B4 & _). apply B4, AS. }
  intros e G NL.
  destruct (store_add_spec dA (mkElem t own data None None) ctx dB k FA T NI S) as (n & GB & RO & EC & AB & PB). cbn [e_type e_attribs e_data e_parent] in GB.
  assert (FB : full_ok dB). { pose proof (store_add_prims normal dA (mkElem t own data None None) ctx T) as Q. rewrite S in Q. eapply full_prims; eassumption. }
  destruct (doc_le_elem _ _ _ _ LE GB) as (e' & G' & [K1 K2 K3]). rewrite G in G'. injection G' as <-. cbn [e_type e_attribs] in K1, K3.
  assert (PL : Forall plain (filter (fun a => negb (a_encodable a)) own)) by (apply plain_filter, T).
  assert (KA : e_attribs e = filter (fun a => negb (a_encodable a)) own ++ refs n).
  { destruct K3 as [K3|((RL & _) & NS)]; [exact K3|]. exfalso. rewrite K1 in RL. destruct (named_layer _ _ T NL RL) as (x & I & X). destruct (layer_annotationtype _ RL) as (a & AT).
    pose proof (in_encodable (mkElem t own data None None) _ I X) as E.
    destruct EC as [EN|t' dk dec EN AT' DS _ _ _ _|pk parent t' dk dec EN FT|EN AT']; try congruence.
    - unfold e_has_attrib in NS. cbn [e_attribs] in NS. rewrite existsb_app in NS. apply orb_false_iff in NS. destruct NS as (_ & NS). unfold refs in NS.
      rewrite (ds_dec _ _ _ _ _ _ _ DS) in NS. discriminate.
    - cbn in FT. rewrite FT in AT. discriminate.
    - cbn in AT'. congruence. }
  split. { rewrite KA. apply filter_app_other. apply refs_decodable. }
  intros U AN. set (e0 := mkElem t own data None None) in *.
  assert (FR : fresh_id dA e0) by (intros id I; split; [apply NI, I|]; intros c N; destruct (texts_not_nested e0 c ED N)).
  destruct (values_survive 0 dA e0 ctx dB k FA (texts_built e0 ED T) U FR AN (by_store _ _ _ _ _ _ S)) as (e1 & G1 & V1 & V2 & V3 & V4 & V5).
  rewrite GB in G1. injection G1 as <-. set (e1 := mkElem t (filter (fun a => negb (a_encodable a)) own ++ refs n) data (Some k) None) in *.
  destruct (report_le dB d e1 e LE) as (R1 & R2 & R3 & _ & _ & _ & R4); [destruct FB as (_ & _ & _ & EO); apply (EO _ _ GB)|exact K1|exact KA|].
  assert (RM : room d -> room dB) by (intros X; eapply room_le; [apply FB|exact LE|exact X]).
  assert (RC : room d \/ t <> ET_Feature -> r_class d e = r_class dB e1).
  { intros H. apply R4. intros (BF1 & BF2). cbn in BF1. destruct AN as [(a & AT)|(FT & x & IX)]; [rewrite BF1 in AT; discriminate|]. destruct H as [H|H]; [|contradiction].
    assert (EE : e_has_attrib e1 AB_SUBSET = true); [|congruence]. pose proof (V3 (RM H) x FT IX) as Q. rewrite (rep_subset dB e1 _ n eq_refl PL) in Q.
    unfold e1. rewrite (has_subset_refs _ n PL). destruct (en_subset n); [reflexivity|]. destruct (obind (en_dec n) (get_declaration dB)); discriminate Q. }
  rewrite R1, R2, R3. split; [exact V1|]. split; [intros X c I; rewrite (RC (or_introl X)); apply (V2 (RM X)), I|]. split; [intros X; apply (V3 (RM X))|]. split.
  - intros AS id I K. destruct (get_processor_key_by_id d id) as [pk|] eqn:GP; [|congruence]. apply (V4 id pk I). unfold get_processor_key_by_id in *. rewrite AS, PB in GP. exact GP.
  - intros c NF Q. rewrite (RC (or_intror NF)) in Q. destruct (V5 (named_cases e0 T NL) c Q) as [X|X]; [contradiction|exact X].
Qed.
Lemma stored_kept d0 n d p t own k : full_ok d -> stored d0 n d p t own k -> keeps_attributes d t own k /\ keeps_processor d t own k.
Proof.
  intros FD (_ & dA & dB & data & FA & _ & NI & ED & T & _ & S & (LE & AS)). destruct (tag_kept dA dB d t own data (Some p) k FA NI ED T S LE FD) as (A & B).
  split; [exact A|]. apply B. apply aside_procs, AS.
Qed.

(* ================================================================ C53 *)
Lemma suffix_app {A} (l r : list A) : suffix r (l ++ r).
Proof. exists l. reflexivity. Qed.
Lemma body_stored p attrs ev O t x d2 d3 d4 k : props_ok normal p -> prims0 normal (doc_empty "untitled" (dp_autodeclare p)) d2 ->
  NoDup (tag_ids attrs ++ xml_ids ev) -> parse_attributes O t attrs = Ok x ->
  store_add d2 (mkElem t (fst x) [] None None) None = (d3, Ok k) -> apply_properties d3 p = (d4, Ok tt) ->
  k = 0 /\ sh_len d2 = 0 /\ full_ok d2 /\ full_ok d4 /\ follows d2 d3 /\ doc_elements d4 = doc_elements d3 /\ sh d4 0 = Some (mkSh t None []) /\ sh_len d4 = 1 /\ pinv d4 [0] ev /\
  textual (fst x) /\ new_id d2 (mkElem t (fst x) [] None None) /\ doc_le d3 d4.
Proof.
  intros GP FU XI PA ST AP. pose proof (prims0_len _ _ _ FU) as (L0 & IX). cbn in L0.
  assert (F2 : full_ok d2) by (eapply full_prims0; [exact FU|apply full_empty]).
  assert (NI : forall id, ~ has_id d2 id). { intros id Q. unfold has_id, get_element_key_by_id, st_id_to_key in Q. rewrite IX in Q. apply Q. reflexivity. }
  destruct (parse_attributes_spec _ _ _ _ PA) as (TX & IDS & _).
  apply NoDup_app_inv in XI. destruct XI as (X1 & X2 & X3).
  assert (P0 : pinv d2 [] ev). { split; [apply forest_empty, L0|apply NoDup_nil|intros k0 []|intros id Q; destruct (NI id Q)|exact X2]. }
  destruct (pinv_tag d2 [] ev attrs (mkElem t (fst x) [] None None) None d3 k P0 X1 (fun id J => conj (NI id) (X3 id J)) IDS eq_refl eq_refl ST) as (EK & P3 & _).
  rewrite L0 in EK. subst k.
  assert (N2 : new_id d2 (mkElem t (fst x) [] None None)). { intros id I. destruct (get_element_key_by_id d2 id) eqn:Q; [|reflexivity]. exfalso. apply (NI id). unfold has_id. rewrite Q. discriminate. }
  assert (EL : doc_elements d4 = doc_elements d3). { pose proof (apply_properties_elements d3 p) as Q. rewrite AP in Q. exact Q. }
  pose proof (same_sh_elements d3 d4 EL) as SS.
  destruct (forest_store d2 (mkElem t (fst x) [] None None) None d3 0 (pi_forest _ _ _ P0) N2 eq_refl (fun _ i => i) eq_refl ST) as (_ & L3 & F3 & S3 & _).
  assert (PS : prims normal d2 d3). { pose proof (store_add_prims normal d2 (mkElem t (fst x) [] None None) None TX) as Q. rewrite ST in Q. exact Q. }
  assert (PA4 : prims normal d3 d4).
  { pose proof (apply_properties_prims normal (go_decl _ normal_ok) d3 p GP) as Q. rewrite AP in Q. apply Q. assert (F : full_ok d3) by (eapply full_prims; eassumption). apply F. }
  split; [reflexivity|]. split; [exact L0|]. split; [exact F2|]. split; [eapply full_prims; [exact PA4|eapply full_prims; eassumption]|].
  split; [eapply follows_store; [|exact ST]; exact TX|]. split; [exact EL|]. split.
  - assert (Q : sh d4 0 = sh d3 0) by apply SS. rewrite Q, S3. reflexivity.
  - split; [unfold sh_len in *; rewrite EL; lia|]. split; [|split; [exact TX|split; [exact N2|apply prims_doc_le, PA4]]].
    eapply pinv_next; [exact P3|eapply forest_same; [exact SS|apply P3]|apply same_grown, SS|apply SS|auto|apply P3].
Qed.

Lemma parts_prims fuel O p rattrs head name attrs ev d d1 d2 t x d3 d4 k : document_parts fuel O p rattrs head name attrs ev d d1 d2 t x d3 d4 k ->
  prims0 normal (doc_empty "untitled" (dp_autodeclare p)) d2.
Proof.
  intros [R M _ _ _ _ _].
  assert (HP : forall p l, parse_processor l = Ok p -> g_proc normal p). { exact (fun p0 l0 H => parse_processor_fresh _ _ H). }
  assert (FU1 : prims0 normal (doc_empty "untitled" (dp_autodeclare p)) d1) by (eapply root_attrs_p0, R).
  pose proof (parse_metadata_p0 normal (go_decl _ normal_ok) HP (head ++ [EvEnd NsFolia "metadata"]) d1 ms_init) as FU2. rewrite M in FU2. cbn [fst] in FU2.
  exact (rtc_trans _ _ _ _ FU1 FU2).
Qed.
Lemma aside_declares l : forall d, aside d (fst (apply_declares d l)).
Proof.
  induction l as [|x l IH]; intros d; cbn [apply_declares]; [apply aside_refl|]. destruct x as [t s]. apply aside_bind; [apply aside_declare|]. intros d1 k _. apply aside_bind; [|intros; apply IH].
  destruct s as [s|]; [|apply aside_refl]. destruct (String.eqb s DEFAULT_TEXT_SET); [|apply aside_refl]. apply aside_bind; [|intros; apply aside_refl].
  unfold doc_add_class. destruct (get_declaration d1 k) as [dec|]; [|apply aside_refl]. destruct (d_add_class dec "current") as [y r]. cbn [fst]. destruct d1; reflexivity.
Qed.
(* a body stored and read: the tree, and the attributes of its elements *)
Definition tree_read (O : oracle) (p : docprops) (attrs : xattrs) (nodes : list xnode) (t : ElementType) (own : list Attribute) (d : document) : Prop :=
  exists feats content n, reads_attributes O t attrs own feats /\ keeps_attributes d t own 0 /\
    (dp_processor p = None -> keeps_processor d t own 0) /\ element_is d 0 t None content /\
    made O d (fun _ t own k => keeps_attributes d t own k /\ keeps_processor d t own k) 0 nodes content n /\
    length (st_items (doc_elements d)) = S n.
Lemma tree_built fuel O p name attrs nodes ev after t x d2 d3 d4 k d : props_ok normal p -> prims0 normal (doc_empty "untitled" (dp_autodeclare p)) d2 ->
  xml_events nodes ev -> NoDup (tag_ids attrs ++ xml_ids (ev ++ EvEnd NsFolia name :: after)) -> parse_attributes O t attrs = Ok x ->
  store_add d2 (mkElem t (fst x) [] None None) None = (d3, Ok k) -> apply_properties d3 p = (d4, Ok tt) ->
  parse_elements fuel O d4 (ev ++ EvEnd NsFolia name :: after) = (d, Ok tt) -> tree_read O p attrs nodes t (fst x) d.
Proof.
  intros GP FU XE ND PA ST AP PE.
  destruct (body_stored _ _ _ _ _ _ _ _ _ _ GP FU ND PA ST AP) as (-> & L2 & F2 & F4 & FO & EL & S4 & L4 & PI & TX & NI & LE34).
  unfold parse_elements in PE. destruct (st_items (doc_elements d4)) as [|e0 l0]; [discriminate|]. clear e0 l0.
  destruct (content_built fuel O d4 nodes ev XE 0 [] (EvEnd NsFolia name :: after) d4 d F4 (follows_refl d4) PI PE) as (d5 & l & n & PE5 & PI5 & G & MD).
  cbn in PE5. injection PE5 as ->. destruct (parse_attributes_reads _ _ _ _ PA) as (fs & RA & _).
  destruct (tag_kept d2 d3 d t (fst x) [] None 0 F2 NI (fun _ i => match i with end) TX ST) as (KA & KP).
  { eapply doc_le_trans; [exact LE34|]. apply (grows_at_le _ _ _ _ _ G). }
  { eapply full_prims; [apply (ga_prims _ _ _ _ _ G)|exact F4]. }
  exists fs, l, n. split; [exact RA|]. split; [exact KA|]. split; [|split; [|split]].
  - intros NPR. apply KP. rewrite (aside_procs _ _ (proj2 (grows_at_le _ _ _ _ _ G))). unfold apply_properties in AP. rewrite NPR in AP. revert AP. clear. intros AP.
    apply (aside_procs d3 d4). cbn [sbind] in AP. pose proof (aside_declares (dp_declare p) d3) as Q. rewrite AP in Q. exact Q.
  - apply element_sh. rewrite (ga_top _ _ _ _ _ G _ S4). reflexivity.
  - eapply made_impl; [|exact MD]. intros p0 t0 own0 k0. apply stored_kept. eapply full_prims; [apply (ga_prims _ _ _ _ _ G)|exact F4].
  - pose proof (ga_len _ _ _ _ _ G) as Q. unfold sh_len, st_len in Q, L4. rewrite Q, L4. reflexivity.
Qed.
(* Parsing a document builds the tree of its body: element 0 is the body, its content is what the nodes describe, every
   element carries the attributes of its tag, and there are no other elements.
   Hypotheses: the XML is well-formed (xml_events), no xml:id occurs twice in the body, and parsing succeeds. *)
Theorem C53_parse_builds_tree : forall fuel O p prolog rattrs head gap name attrs nodes ev after d, props_ok normal p ->
  (forall x, In x prolog -> ~ starts x) -> ~ In (EvEnd NsFolia "metadata") head -> (forall x, In x gap -> ~ starts x) ->
  xml_events nodes ev ->
  NoDup (xml_ids (EvStart NsFolia name attrs :: ev ++ EvEnd NsFolia name :: after)) ->
  parse_document fuel O p (document_events prolog rattrs head gap name attrs (ev ++ EvEnd NsFolia name :: after)) = Ok d ->
  exists t own feats content n, body_tag name t /\ reads_attributes O t attrs own feats /\ keeps_attributes d t own 0 /\
    (dp_processor p = None -> keeps_processor d t own 0) /\ element_is d 0 t None content /\
    made O d (fun _ t own k => keeps_attributes d t own k /\ keeps_processor d t own k) 0 nodes content n /\
    length (st_items (doc_elements d)) = S n.
Proof.
  intros fuel O p prolog rattrs head gap name attrs nodes ev after d GP NP NH NG XE ND H.
  destruct (parse_document_parts _ _ _ _ _ _ _ _ _ _ _ NP NH NG H) as (d1 & d2 & t & x & d3 & d4 & k & DP). pose proof (parts_prims _ _ _ _ _ _ _ _ _ _ _ _ _ _ _ _ DP) as FU.
  destruct DP as [R M BT PA ST AP PE]. destruct (tree_built _ _ _ _ _ _ _ _ _ _ _ _ _ _ _ GP FU XE ND PA ST AP PE) as (fs & l & n & Q).
  exists t, (fst x), fs, l, n. split; [exact BT|exact Q].
Qed.
Print Assumptions C53_parse_builds_tree.

(* a document with a declaration, foreign tags, blank text, a comment, CDATA and a feature written as an attribute *)
Definition xa (k v : string) : option xattr := Some (mkXA k (Some v)).
Definition ex_head : list event :=
  [EvStart NsFolia "metadata" [xa "type" "native"]; EvText (Some " "); EvStart NsFolia "annotations" [];
   EvStart NsFolia "pos-annotation" [xa "set" "posset"]; EvEnd NsFolia "pos-annotation"; EvEnd NsFolia "annotations"].
Definition ex_nodes : list xnode :=
  [XText " "; XElement "s" [xa "xml:id" "s.1"]
     [XElement "w" [xa "xml:id" "w.1"; xa "class" "WORD"; xa "set" "tokset"]
        [XElement "t" [] [XText "hello"]; XForeign "span" [] [XElement "pos" [xa "class" "N"; xa "head" "noun"] []; XComment "checked"]];
      XText " "; XElement "w" [xa "xml:id" "w.2"] [XElement "t" [] [XCData "world"]]; XOther]].
Definition ex_file (ev : list event) : list event :=
  document_events [EvOther] [xa "xml:id" "d"; xa "version" "2.5.0"] ex_head [EvText (Some " ")] "text" [xa "xml:id" "t.1"] (ev ++ [EvEnd NsFolia "text"; EvEnd NsFolia "FoLiA"]).
Definition no_props : docprops := mkDP BT_Text true [] None.
Lemma no_props_ok : props_ok normal no_props.
Proof. intros pr E. discriminate E. Qed.
Example C53_nonvacuous : exists ev d, xml_events ex_nodes ev /\ (forall x, In x [EvOther] -> ~ starts x) /\ ~ In (EvEnd NsFolia "metadata") ex_head /\
  (forall x, In x [EvText (Some " "%string)] -> ~ starts x) /\ NoDup (xml_ids (EvStart NsFolia "text" [xa "xml:id" "t.1"] :: ev ++ [EvEnd NsFolia "text"; EvEnd NsFolia "FoLiA"])) /\ parse_document fuel1 (mkOracle (fun _ => None) (fun _ => "0.5"%string)) no_props (ex_file ev) = Ok d /\
  length (st_items (doc_elements d)) = 8.
Proof.
  eexists _, _. split; [unfold ex_nodes; repeat first [eapply (ev_foreign NsNone); [discriminate| |]|econstructor]|].
  split; [intros x [<-|[]] (? & ? & ? & E); discriminate E|]. split; [intros I; cbn in I; decompose [or] I; try discriminate; contradiction|].
  split; [intros x [<-|[]] (? & ? & ? & E); discriminate E|]. split; [|split; vm_compute; reflexivity].
  vm_compute. repeat (constructor; [cbn; intros I; decompose [or] I; try discriminate; contradiction|]). constructor.
Qed.

(* ================================================================ C58 *)
(* no attribute proper has the name of a shortcut *)
Lemma shortcut_not_attribute O t name v : shortcut t name -> parse_attrib O name (Some v) = Err EParse.
Proof.
  intros (f & _ & I & P). cbn [group_elementtypes In] in I. decompose [or] I; subst; try contradiction; cbn in P; try discriminate; injection P as <-; reflexivity.
Qed.
Definition shortcut_name (t : ElementType) (name : string) : bool :=
  existsb (fun a => match a with
                    | AcceptElementType f => existsb (et_eqb f) (group_elementtypes EG_Feature) &&
                                             match p_subset (props f) with Some s => String.eqb s name | None => false end
                    | AcceptElementGroup _ => false
                    end) (p_accepted_data (props t)).
Lemma shortcut_name_spec t name : shortcut_name t name = true <-> shortcut t name.
Proof.
  unfold shortcut_name, shortcut. rewrite existsb_exists. split.
  - intros (a & I & H). destruct a as [f|]; [|discriminate]. apply andb_prop in H. destruct H as (H1 & H2). apply existsb_exists in H1. destruct H1 as (f' & J & E).
    destruct (et_eqb_spec f f') as [<-|]; [|discriminate]. destruct (p_subset (props f)) as [s|] eqn:P; [|discriminate]. apply String.eqb_eq in H2. subst s. eauto.
  - intros (f & I & J & P). exists (AcceptElementType f). split; [exact I|]. rewrite P, String.eqb_refl, andb_true_r. apply existsb_exists. exists f. split; [exact J|]. destruct (et_eqb_spec f f); [reflexivity|contradiction].
Qed.
(* the attributes in a tag of type t that are shortcuts, in order, with their values *)
Definition shortcuts (t : ElementType) (attrs : xattrs) : list (string * string) :=
  flat_map (fun x => match x with
                     | Some x => match xa_val x with Some v => if shortcut_name t (xa_key x) then [(xa_key x, v)] else [] | None => [] end
                     | None => []
                     end) attrs.
Lemma reads_shortcuts O t attrs own feats : reads_attributes O t attrs own feats -> feats = shortcuts t attrs.
Proof.
  intros R. induction R as [|x a rest own feats P R IH|x v err rest own feats P V S R IH]; [reflexivity| |]; unfold shortcuts; cbn [flat_map].
  - destruct (xa_val x) as [v|] eqn:V; [|exact IH]. destruct (shortcut_name t (xa_key x)) eqn:S; [|exact IH]. apply shortcut_name_spec in S. rewrite (shortcut_not_attribute O t _ v S) in P. discriminate.
  - rewrite V. apply shortcut_name_spec in S. rewrite S. cbn [app]. f_equal. exact IH.
Qed.
(* the node is one of these, at any depth *)
Inductive within (x : xnode) : list xnode -> Prop :=
  | within_here rest : within x (x :: rest)
  | within_later y rest : within x rest -> within x (y :: rest)
  | within_element name attrs inside rest : within x inside -> within x (XElement name attrs inside :: rest)
  | within_foreign name attrs inside rest : within x inside -> within x (XForeign name attrs inside :: rest).
(* Element k of the document is a feature below element p, with this subset and class. *)
Definition feature_is (d : document) (p : nat) (f : string * string) (k : nat) : Prop :=
  exists e, get_elementdata d k = Some e /\ e_type e = ET_Feature /\ e_parent e = Some p /\ content e = [DText (snd f)] /\
    (room d -> r_subset d e = Ok (Some (fst f)) /\ r_class d e = Ok (Some (snd f))).

Lemma made_within O d good p nodes l n x : made O d good p nodes l n -> within x nodes -> exists p' rest l' n', made O d good p' (x :: rest) l' n'.
Proof.
  intros M W. revert p l n M. induction W as [rest|y rest W IH|name attrs inside rest W IH|name attrs inside rest W IH]; intros p l n M.
  - exists p, rest, l, n. exact M.
  - inversion M; subst; eapply IH; eassumption.
  - inversion M; subst. eapply IH; eassumption.
  - inversion M; subst. eapply IH; eassumption.
Qed.
Lemma made_features_are d p fs l n : made_features d (fun _ t own k => keeps_attributes d t own k /\ keeps_processor d t own k) p fs l n ->
  exists ks, l = map DElement ks /\ n = length ks /\ Forall2 (feature_is d p) fs ks.
Proof.
  intros M. induction M as [|subset class k feats l n E (KA & _) M (ks & -> & -> & F)]; [exists []; auto|]. exists (k :: ks). split; [reflexivity|]. split; [reflexivity|]. constructor; [|exact F].
  destruct E as (e & G & TY & PA & CO). exists e. repeat (split; [assumption|]). intros RM. cbn [fst snd].
  destruct (KA e G) as (_ & K0). destruct K0 as (_ & K); [intros (Q & _); discriminate Q|]. destruct K as (_ & K2 & K3 & _).
  - unfold unique_types. cbn. repeat (constructor; [cbn; intros I; decompose [or] I; try discriminate; contradiction|]). constructor.
  - right. split; [reflexivity|]. exists subset. left. reflexivity.
  - split; [apply (K3 RM); [reflexivity|left; reflexivity]|apply (K2 RM); right; left; reflexivity].
Qed.

(* In every loaded document, every FoLiA tag of the body has made an element whose content starts with one feature for
   each shortcut attribute of the tag: same order, that subset, that class. *)
Theorem C58_shortcuts_become_features : forall fuel O p prolog rattrs head gap name attrs nodes ev after d, props_ok normal p ->
  (forall x, In x prolog -> ~ starts x) -> ~ In (EvEnd NsFolia "metadata") head -> (forall x, In x gap -> ~ starts x) ->
  xml_events nodes ev ->
  NoDup (xml_ids (EvStart NsFolia name attrs :: ev ++ EvEnd NsFolia name :: after)) ->
  parse_document fuel O p (document_events prolog rattrs head gap name attrs (ev ++ EvEnd NsFolia name :: after)) = Ok d ->
  forall tag tattrs inside, within (XElement tag tattrs inside) nodes ->
  exists t k e features rest, et_from_str tag = Some t /\ get_elementdata d k = Some e /\ e_type e = t /\
    content e = map DElement features ++ rest /\ Forall2 (feature_is d k) (shortcuts t tattrs) features.
Proof.
  intros fuel O p prolog rattrs head gap name attrs nodes ev after d GP NP NH NG XE ND H tag tattrs inside W.
  destruct (C53_parse_builds_tree _ _ _ _ _ _ _ _ _ _ _ _ _ GP NP NH NG XE ND H) as (_ & _ & _ & l & n & _ & _ & _ & _ & _ & M & _).
  destruct (made_within _ _ _ _ _ _ _ _ M W) as (p' & rest & l' & n' & M1). inversion M1 as [|p0 nm at0 ins rs t own feats k fl il l0 fn inn n0 ET RA EL GO MF MI MR| | | | | | | |]; subst.
  destruct (made_features_are _ _ _ _ _ MF) as (ks & -> & _ & F). destruct EL as (e & G & TY & _ & CO). rewrite (reads_shortcuts _ _ _ _ _ RA) in F.
  exists t, k, e, ks, il. auto.
Qed.
Print Assumptions C58_shortcuts_become_features.
Example C58_nonvacuous : exists ev, xml_events ex_nodes ev /\ NoDup (xml_ids (EvStart NsFolia "text" [xa "xml:id" "t.1"] :: ev ++ [EvEnd NsFolia "text"; EvEnd NsFolia "FoLiA"])) /\
  (exists d, parse_document fuel1 (mkOracle (fun _ => None) (fun _ => "0.5"%string)) no_props (ex_file ev) = Ok d) /\
  within (XElement "pos" [xa "class" "N"; xa "head" "noun"] []) ex_nodes /\ shortcuts ET_PosAnnotation [xa "class" "N"; xa "head" "noun"] = [("head"%string, "noun"%string)].
Proof.
  destruct C53_nonvacuous as (ev & d & XE & _ & _ & _ & ND & P & _). exists ev. split; [exact XE|]. split; [exact ND|]. split; [exists d; exact P|]. split; [|reflexivity].
  apply within_later, within_element, within_element, within_later, within_foreign, within_here.
Qed.
