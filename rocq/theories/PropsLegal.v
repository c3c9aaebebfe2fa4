(* C75 for documents: a document whose strings can be written in XML is saved as well-formed XML. *)
From Coq Require Import String Ascii List Bool Arith NArith Lia.
From Verif Require Import Base BaseFacts Types TypesFacts SpecTable Attrib AttribFacts Element Store StoreFacts Metadata Document Select DocOps Xml Parser Serialiser History Spec
  FrameFacts InvFacts DocFacts Examples StoreThms InternFacts EncodeFacts PropsEncode LinkFacts TreeFacts ForestFacts SelSpec SelectFacts PropsLinks PropsQuery SerSpec PropsSer ParseSpec ParseFacts PropsParse PropsProv
  NoPanic Returns RoundFacts RoundProv RoundSpec RoundTree PropsRound PropsTree WellSpec LoadOk PropsWell SaveSpec SaveOk PropsSave XmlText XmlTextFacts XmlSpec PropsBytes XmlWell PropsWellFormed LegalSpec.
Import ListNotations.
Open Scope string_scope.

(* ---------------------------------------------------------------- attributes *)
Lemma xml_charb_complete a : xml_char a -> xml_charb a = true.
Proof. unfold xml_char, xml_charb. intros [H|[->|[->| ->]]]; try reflexivity. apply N.leb_le in H. rewrite H. reflexivity. Qed.
Lemma everyb_complete s : legal_text s -> everyb xml_charb s = true.
Proof. induction s as [|a s IH]; [reflexivity|]. intros (A & B). cbn [everyb]. rewrite (xml_charb_complete _ A). exact (IH B). Qed.
(* what holds if it is not refuted *)
Lemma legal_stable s : ~ ~ legal_text s -> legal_text s.
Proof. intros H. destruct (everyb xml_charb s) eqn:E; [apply everyb_spec, E|]. exfalso. apply H. intros L. apply everyb_complete in L. congruence. Qed.

Definition fine (names : list string) (l : list (string * string)) : Prop := NoDup (map fst l) /\ incl (map fst l) names /\ Forall (fun p => legal_text (snd p)) l.
Definition legal_attrs (l : list (string * string)) : Prop := NoDup (map fst l) /\ Forall (fun p => legal_text (snd p)) l.
Lemma fine_attrs names l : fine names l -> legal_attrs l.
Proof. intros (A & _ & B). split; assumption. Qed.
Lemma fine_nil : fine [] [].
Proof. split; [constructor|]. split; [intros x []|constructor]. Qed.
Lemma fine_cons k v names l : fine names l -> existsb (String.eqb k) names = false -> legal_text v -> fine (k :: names) ((k, v) :: l).
Proof.
  intros (A & B & C) N L. split; [cbn [map fst]; constructor; [|exact A]|].
  - intros I. apply B in I. assert (X : existsb (String.eqb k) names = true) by (apply existsb_exists; exists k; split; [exact I|apply String.eqb_refl]). congruence.
  - split; [intros x [<-|I]; [left; reflexivity|right; apply B, I]|constructor; assumption].
Qed.
Lemma fine_weaken k names l : fine names l -> fine (k :: names) l.
Proof. intros (A & B & C). split; [exact A|]. split; [intros x I; right; apply B, I|exact C]. Qed.
Lemma fine_oattr k v names l : fine names l -> existsb (String.eqb k) names = false -> legal_option v -> fine (k :: names) (oattr k v ++ l)%list.
Proof. intros F N L. destruct v as [v|]; [apply fine_cons; auto|apply fine_weaken, F]. Qed.
Lemma fine_sattr k v names l : fine names l -> existsb (String.eqb k) names = false -> legal_text v -> fine (k :: names) (sattr k v ++ l)%list.
Proof. intros F N L. unfold sattr. destruct (str_is_empty v); [apply fine_weaken, F|apply fine_cons; auto]. Qed.

(* ---------------------------------------------------------------- dates *)
Lemma digit_legal n : xml_char (digit n).
Proof. unfold digit, xml_char. left. assert (B : (n mod 10 < 10)%N) by (apply N.mod_lt; discriminate). remember (n mod 10)%N as m. rewrite N_ascii_embedding; lia. Qed.
Lemma pad2_legal n : legal_text (pad2 n).
Proof. split; [apply digit_legal|]. split; [apply digit_legal|exact Logic.I]. Qed.
Lemma pad4_legal n : legal_text (pad4 n).
Proof. apply every_chars_app; apply pad2_legal. Qed.
Lemma date_legal x : legal_text (dt_print x).
Proof. unfold dt_print. repeat apply every_chars_app; first [apply pad4_legal|apply pad2_legal|apply lit; reflexivity]. Qed.
Lemma date_option x : legal_option (option_map dt_print x).
Proof. intros v. destruct x; [intros [= <-]; apply date_legal|discriminate]. Qed.

(* ---------------------------------------------------------------- the metadata *)
Lemma legal_app a b : Forall legal_event a -> Forall legal_event b -> Forall legal_event (a ++ b)%list.
Proof. intros. apply Forall_app. auto. Qed.
Lemma nl_legal : legal_event wnl.
Proof. apply lit. reflexivity. Qed.
Lemma processor_fine p : legal_processor p -> legal_attrs (proc_attrs p).
Proof.
  unfold legal_processor. intros H. repeat match goal with H : Forall _ (_ :: _) |- _ => inversion_clear H end. unfold proc_attrs. cbn [app].
  eapply fine_attrs. do 2 (apply fine_cons; [|shelve|assumption]). apply fine_cons; [|shelve|destruct (pr_type p); apply lit; reflexivity].
  do 6 (apply fine_sattr; [|shelve|assumption]). do 2 (apply fine_oattr; [|shelve|apply date_option]). do 2 (apply fine_sattr; [|shelve|assumption]).
  rewrite <- (app_nil_r (sattr _ _)). apply fine_sattr; [apply fine_nil| |assumption]. reflexivity.
  Unshelve. all: reflexivity.
Qed.
Section Legal.
Variables (O : oracle) (d : document).
Hypothesis L : legal_document O d.
Lemma annotators_legal l : forall w, w_annotators d l = Ok w -> Forall legal_event w.
Proof.
  induction l as [|k l IH]; intros w H; cbn [w_annotators] in H; [injection H as <-; constructor|]. destruct (get_processor d k) as [p|] eqn:G; [|discriminate].
  apply rbind_ok in H. destruct H as (x & X & H). injection H as <-. constructor; [|apply IH, X]. pose proof (legal_procs _ _ L _ _ G) as Q. inversion_clear Q.
  split; [repeat constructor; intros []|]. constructor; [assumption|constructor].
Qed.
Lemma declaration_legal x w : legal_declaration x -> w_declaration d x = Ok w -> Forall legal_event w.
Proof.
  intros (A & B & C) H. unfold w_declaration in H.
  assert (F : legal_attrs (oattr "set" (d_set x) ++ oattr "alias" (d_alias x) ++ oattr "format" (d_format x))%list).
  { eapply fine_attrs. apply fine_oattr; [apply fine_oattr; [rewrite <- (app_nil_r (oattr "format" _)); apply fine_oattr; [apply fine_nil| |assumption]| |assumption]| |assumption]; reflexivity. }
  destruct (d_processors x) as [|q ps]; [injection H as <-; constructor; [exact F|constructor; [exact nl_legal|constructor]]|].
  apply rbind_ok in H. destruct H as (y & Y & H). injection H as <-. constructor; [exact F|]. apply legal_app; [eapply annotators_legal, Y|]. constructor; [exact Logic.I|constructor; [exact nl_legal|constructor]].
Qed.
Lemma declarations_legal ds : (forall x, In (Some x) ds -> legal_declaration x) -> forall w, w_declaration_list d ds = Ok w -> Forall legal_event w.
Proof.
  induction ds as [|[x|] ds IH]; intros A w H; cbn [w_declaration_list] in H; [injection H as <-; constructor| |apply IH; [intros y I; apply A; right; exact I|exact H]].
  apply rbind_ok in H. destruct H as (a & X & H). apply rbind_ok in H. destruct H as (b & Y & H). injection H as <-.
  apply legal_app; [apply (declaration_legal x); [apply A; left; reflexivity|exact X]|apply IH; [intros y I; apply A; right; exact I|exact Y]].
Qed.
Lemma all_decls x : In (Some x) (st_items (doc_decls d)) -> legal_declaration x.
Proof. intros I. apply In_nth_error in I. destruct I as (k & I). apply (legal_decls _ _ L k). unfold get_declaration, st_get. rewrite I. reflexivity. Qed.
Lemma each_legal f : (forall k l, f k = Ok l -> Forall legal_event l) -> forall ks l, w_each f ks = Ok l -> Forall legal_event l.
Proof.
  intros F. induction ks as [|k ks IH]; intros l H; cbn [w_each] in H; [injection H as <-; constructor|].
  apply rbind_ok in H. destruct H as (x & X & H). apply rbind_ok in H. destruct H as (y & Y & H). injection H as <-. apply legal_app; [eapply F, X|apply IH, Y].
Qed.
Lemma processor_legal fuel : forall k l, w_processor fuel d k = Ok l -> Forall legal_event l.
Proof.
  induction fuel as [|f IH]; intros k l H; cbn [w_processor] in H; [discriminate|]. destruct (get_processor d k) as [p|] eqn:G; [|injection H as <-; constructor].
  pose proof (processor_fine p (legal_procs _ _ L _ _ G)) as F. destruct (pr_processors p) as [|s ss].
  - injection H as <-. constructor; [exact F|constructor; [exact nl_legal|constructor]].
  - apply rbind_ok in H. destruct H as (x & X & H). injection H as <-. constructor; [exact F|]. apply legal_app; [apply (each_legal _ IH _ _ X)|]. constructor; [exact Logic.I|constructor; [exact nl_legal|constructor]].
Qed.
Lemma pairs_legal l : (forall k v, In (k, v) l -> legal_text k /\ legal_text v) -> Forall legal_event (flat_map w_meta l).
Proof.
  induction l as [|[k v] l IH]; intros A; [constructor|]. cbn [flat_map w_meta fst snd]. destruct (A k v (or_introl eq_refl)) as (K & V).
  apply legal_app; [|apply IH; intros; apply A; right; assumption]. constructor; [split; [repeat constructor; intros []|constructor; [exact K|constructor]]|].
  constructor; [exact V|]. constructor; [exact Logic.I|]. constructor; [exact nl_legal|constructor].
Qed.
Lemma metadata_legal fuel m : w_metadata fuel d = Ok m -> Forall legal_event m.
Proof.
  unfold w_metadata, w_declarations, w_provenance. intros H. apply rbind_ok in H. destruct H as (ds & D & H). apply rbind_ok in D. destruct D as (x & X & D). injection D as <-.
  apply rbind_ok in H. destruct H as (ps & P & H). apply rbind_ok in P. destruct P as (y & Y & P). injection P as <-. injection H as <-.
  apply (declarations_legal _ all_decls) in X. apply (each_legal _ (processor_legal fuel)) in Y. destruct (legal_meta _ _ L) as (A & B & C).
  assert (NIL : legal_attrs []) by (split; constructor).
  constructor.
  - change (legal_attrs (oattr "type" (m_type (doc_metadata d)) ++ oattr "src" (m_src (doc_metadata d)))). eapply fine_attrs.
    apply fine_oattr; [rewrite <- (app_nil_r (oattr "src" _)); apply fine_oattr; [apply fine_nil| |assumption]| |assumption]; reflexivity.
  - assert (TWO : forall n, Forall legal_event [WEnd n; wnl]) by (intros n; constructor; [exact Logic.I|constructor; [exact nl_legal|constructor]]).
    assert (SM : Forall legal_event (flat_map (fun p : string * metadata => flat_map w_meta (m_data (snd p))) (doc_submetadata d))).
    { pose proof (legal_submeta _ _ L) as SM. induction (doc_submetadata d) as [|[k q] l IH]; [constructor|]. cbn [flat_map snd]. apply legal_app; [|apply IH; intros; eapply SM; right; eassumption].
      apply pairs_legal. apply (SM k q). left. reflexivity. }
    constructor; [exact nl_legal|]. constructor; [exact NIL|]. constructor; [exact nl_legal|]. apply legal_app; [apply legal_app; [exact X|apply TWO]|].
    constructor; [exact NIL|]. constructor; [exact nl_legal|]. apply legal_app; [apply legal_app; [exact Y|apply TWO]|]. apply legal_app; [apply pairs_legal, C|]. apply legal_app; [exact SM|apply TWO].
Qed.

(* ---------------------------------------------------------------- the elements *)
Hypotheses (F : full_ok d) (SA : single_attributes d).
Lemma given_legal n (v : option string) : legal_option v -> Forall (fun p : string * string => legal_text (snd p)) (given n v).
Proof. intros H. destruct v; [constructor; [apply H; reflexivity|constructor]|constructor]. Qed.
Lemma tag_legal k e a : get_elementdata d k = Some e -> tag_attributes O d e a -> legal_attrs a.
Proof.
  intros G T. destruct (legal_elements _ _ L _ _ G) as ((LO & LR) & _). pose proof (visible_plain d k e F G) as VP. pose proof (SA _ _ G) as ND. rewrite <- VP in ND.
  destruct T as (sh & set & subset & class & proc & -> & FS & M). split.
  - assert (N1 : map fst sh = map (fun x => ab_as_str (attribtype x)) (filter visible (e_attribs e))) by (clear - FS; induction FS as [|x [n v] l m (N & V) FS IH]; [reflexivity|]; cbn [map fst] in *; congruence).
    rewrite map_app, N1.
    assert (NG : NoDup (map fst (given "set" set ++ given "subset" subset ++ given "class" class ++ given "processor" proc)) /\
      forall x, In x (map fst (given "set" set ++ given "subset" subset ++ given "class" class ++ given "processor" proc)) -> In x ["set"; "subset"; "class"; "processor"]).
    { destruct set, subset, class, proc; cbn; (split; [repeat constructor; cbn; intuition discriminate|intuition]). }
    destruct NG as (NG & IG). rewrite <- (map_map attribtype ab_as_str). apply NoDup_app_intro.
    + apply map_NoDup_in; [intros x y _ _; apply names_injective|exact ND].
    + exact NG.
    + intros x X Y. apply IG in Y. apply in_map_iff in X. destruct X as (b & <- & X). apply in_map_iff in X. destruct X as (y & <- & X). rewrite VP in X. apply filter_In in X. destruct X as (_ & X).
      destruct y; try discriminate X; cbn in Y; decompose [or] Y; try contradiction; discriminate.
  - apply Forall_app. split.
    + assert (LV : forall x v, In x (filter visible (e_attribs e)) -> a_display O x = Ok v -> legal_text v) by (intros x v I; apply filter_In in I; apply LO, I).
      clear - FS LV. induction FS as [|x [n v] l m (N & V) FS IH]; [constructor|]. constructor; [apply (LV x); [left; reflexivity|exact V]|]. apply IH. intros y w I. apply LV. right. exact I.
    + destruct (r_declaration_key e) as [[dk|]| | |]; [|destruct M as (-> & -> & -> & ->); constructor..].
      destruct M as (S0 & S1 & SUB & CL & P0 & P1). apply Forall_app; split.
      * apply given_legal. intros v ->. apply legal_stable. intros NL. destruct (et_eqb_spec (e_type e) ET_Feature) as [E|E]; [discriminate (S0 (or_intror E))|].
        assert (NS : ~ sole_declaration d dk) by (intros S; discriminate (S0 (or_introl S))). apply NL, LR. left. apply S1; assumption.
      * apply Forall_app. split; [apply given_legal; intros v ->; apply LR; auto|]. apply Forall_app. split; [apply given_legal; intros v ->; apply LR; auto|].
        apply given_legal. intros v ->. apply LR. right. right. right. apply P1. intros p R S. discriminate (P0 p R S).
Qed.
Lemma body_legal : (forall final k w, xml_of O d final k w -> Forall legal_event w) /\
  (forall final l w, xml_content O d final l w -> (forall s, In (DText s) l -> legal_text s) -> (forall s, In (DComment s) l -> comment_text s) -> Forall legal_event w).
Proof.
  assert (AS : forall t, Forall legal_event (after_start t)) by (intros t; unfold after_start; destruct (markup t || et_eqb t ET_TextContent || et_eqb t ET_PhonContent); repeat constructor).
  assert (AE : forall f t, Forall legal_event (after_end f t)) by (intros f t; unfold after_end; destruct (f || markup t); repeat constructor).
  apply (xml_both O d (fun _ _ w _ => Forall legal_event w) (fun _ l w _ => (forall s, In (DText s) l -> legal_text s) -> (forall s, In (DComment s) l -> comment_text s) -> Forall legal_event w)).
  - intros f k e a G E T. constructor; [apply (tag_legal k e a G T)|apply AS].
  - intros f k e a b G NE T X IH. constructor; [apply (tag_legal k e a G T)|]. apply legal_app; [apply AS|]. destruct (legal_elements _ _ L _ _ G) as (_ & LT & LC). apply legal_app; [apply IH; assumption|].
    constructor; [exact Logic.I|apply AE].
  - constructor.
  - intros f s r l X IH A B. constructor; [apply A; left; reflexivity|]. apply IH; intros; [apply A|apply B]; right; assumption.
  - intros f s r l X IH A B. constructor; [apply B; left; reflexivity|]. apply IH; intros; [apply A|apply B]; right; assumption.
  - intros f s r l X IH A B. apply IH; intros; [apply A|apply B]; right; assumption.
  - intros f c r lc l X IHc Y IH A B. apply legal_app; [exact IHc|]. apply IH; intros; [apply A|apply B]; right; assumption.
Qed.
End Legal.

(* A document all of whose strings have only characters XML has, without two values for one attribute, is saved as a
   well-formed XML document. *)
Theorem C75_legal_document_partial : forall fuel O d root e indent s, tidy d -> get_elementdata d root = Some e -> (e_parent e <> None \/ root = 0) ->
  legal_document O d -> single_attributes d -> doc_bytes fuel O d root indent = Ok s -> well_formed_xml s.
Proof.
  intros * T G P L SA B. pose proof B as B'. unfold doc_bytes in B'. apply rbind_ok in B'. destruct B' as (w & W & _). eapply C75_document_partial; [exact W| |exact B].
  assert (F : full_ok d) by apply reachable_full, tidy_reachable, T. destruct (C52_document_xml_partial fuel O d root e w T G P W) as (attrs & meta & body & E & M & X).
  assert (A : attrs = [("xmlns", NSFOLIA); ("xmlns:xlink", NSXLINK); ("xml:id", doc_id d); ("version", FOLIAVERSION); ("generator", GENERATOR)]).
  { unfold doc_xml in W. apply rbind_ok in W. destruct W as (m & _ & W). apply rbind_ok in W. destruct W as (b & _ & W). rewrite E in W. congruence. }
  subst w attrs. constructor.
  - eapply fine_attrs. repeat (apply fine_cons; [|shelve|first [apply (legal_id _ _ L)|apply lit; reflexivity]]). apply fine_nil.
  - constructor; [exact nl_legal|]. apply legal_app; [eapply metadata_legal; eassumption|]. apply legal_app; [destruct (body_legal O d L F SA) as (Q & _); eapply Q, X|].
    constructor; [exact nl_legal|constructor; [exact Logic.I|constructor]].
  Unshelve. all: reflexivity.
Qed.
Print Assumptions C75_legal_document_partial.

(* ---------------------------------------------------------------- the hypothesis can be met *)
Definition legal_optb (o : option string) : bool := match o with Some v => everyb xml_charb v | None => true end.
Lemma legal_optb_spec o : legal_optb o = true -> legal_option o.
Proof. intros H v ->. apply everyb_spec, H. Qed.
Definition legal_resb (r : res (option string)) : bool := match r with Ok (Some v) => everyb xml_charb v | _ => true end.
Lemma legal_resb_spec r v : legal_resb r = true -> r = Ok (Some v) -> legal_text v.
Proof. intros H ->. apply everyb_spec, H. Qed.
Definition legal_elementb (O : oracle) (d : document) (e : elementdata) : bool :=
  forallb (fun a => match a_display O a with Ok v => everyb xml_charb v | _ => true end) (e_attribs e) &&
  (legal_resb (r_set d e) && legal_resb (r_subset d e) && legal_resb (r_class d e) && legal_resb (r_processor d e)) &&
  forallb (fun x => match x with DText s => everyb xml_charb s | DComment s => commentb s | _ => true end) (e_data e).
Lemma legal_elementb_spec O d e : legal_elementb O d e = true -> legal_values O d e /\ legal_content e.
Proof.
  unfold legal_elementb. intros H. apply andb_prop in H. destruct H as (H & C). apply andb_prop in H. destruct H as (A & H). apply andb_prop in H. destruct H as (H & R4). apply andb_prop in H. destruct H as (H & R3). apply andb_prop in H. destruct H as (R1 & R2).
  rewrite forallb_forall in A, C. split; split.
  - intros a v I' D. specialize (A a I'). rewrite D in A. apply everyb_spec, A.
  - intros v [E|[E|[E|E]]]; [exact (legal_resb_spec _ _ R1 E)|exact (legal_resb_spec _ _ R2 E)|exact (legal_resb_spec _ _ R3 E)|exact (legal_resb_spec _ _ R4 E)].
  - intros s I'. apply everyb_spec, (C _ I').
  - intros s I'. apply (commentb_spec (String.length s)); [auto|exact (C _ I')].
Qed.
Definition legal_metab (m : metadata) : bool := legal_optb (m_type m) && legal_optb (m_src m) && forallb (fun p => everyb xml_charb (fst p) && everyb xml_charb (snd p)) (m_data m).
Lemma legal_metab_spec m : legal_metab m = true -> legal_metadata m.
Proof.
  unfold legal_metab. intros H. apply andb_prop in H. destruct H as (H & C). apply andb_prop in H. destruct H as (A & B). split; [apply legal_optb_spec, A|]. split; [apply legal_optb_spec, B|].
  intros k v I'. rewrite forallb_forall in C. specialize (C _ I'). apply andb_prop in C. destruct C. split; apply everyb_spec; assumption.
Qed.
Definition every_item {A} (p : A -> bool) (s : store A) : bool := forallb (fun o => match o with Some x => p x | None => true end) (st_items s).
Lemma every_item_spec {A} (p : A -> bool) s k x : every_item p s = true -> st_get s k = Some x -> p x = true.
Proof.
  unfold every_item, st_get. intros H G. rewrite forallb_forall in H. destruct (nth_error (st_items s) k) as [o|] eqn:E; [|discriminate]. cbn in G. subst o. apply (H (Some x)). eapply nth_error_In, E.
Qed.
Definition legal_declb (x : declaration) : bool := legal_optb (d_set x) && legal_optb (d_alias x) && legal_optb (d_format x).
Definition legal_procb (p : processor) : bool :=
  forallb (everyb xml_charb) [pr_id p; pr_name p; pr_version p; pr_folia_version p; pr_document_version p; pr_command p; pr_host p; pr_user p; pr_src p; pr_format p; pr_resourcelink p].
Definition legal_docb (O : oracle) (d : document) : bool :=
  everyb xml_charb (doc_id d) && legal_metab (doc_metadata d) && forallb (fun p => legal_metab (snd p)) (doc_submetadata d) &&
  every_item legal_declb (doc_decls d) && every_item legal_procb (doc_procs d) && all_elements d (legal_elementb O d).
Lemma legal_docb_spec O d : legal_docb O d = true -> legal_document O d.
Proof.
  unfold legal_docb. intros H. apply andb_prop in H. destruct H as (H & H6). apply andb_prop in H. destruct H as (H & H5). apply andb_prop in H. destruct H as (H & H4). apply andb_prop in H. destruct H as (H & H3). apply andb_prop in H. destruct H as (H1 & H2).
  split.
  - apply everyb_spec, H1.
  - apply legal_metab_spec, H2.
  - intros k m I'. rewrite forallb_forall in H3. apply legal_metab_spec, (H3 _ I').
  - intros k x G. pose proof (every_item_spec _ _ _ _ H4 G) as Q. unfold legal_declb in Q. apply andb_prop in Q. destruct Q as (Q & Q3). apply andb_prop in Q. destruct Q as (Q1 & Q2). repeat split; apply legal_optb_spec; assumption.
  - intros k p G. pose proof (every_item_spec _ _ _ _ H5 G) as Q. apply Forall_forall. intros s I'. unfold legal_procb in Q. rewrite forallb_forall in Q. apply everyb_spec, (Q _ I').
  - intros k e G. apply legal_elementb_spec, (all_elements_spec _ _ H6 _ _ G).
Qed.
Definition legal_saved (x : string) (d : document) : bool :=
  legal_docb rt_oracle d && all_elements d (fun e => nodup_types (map attribtype (filter plain_value (e_attribs e)))) && bytes_have x d.
(* The example document with a word whose text is full of markup and that has a comment. *)
Example C75_legal_nonvacuous : exists d e before after, tidy d /\ get_elementdata d 0 = Some e /\ legal_document rt_oracle d /\ single_attributes d /\
  doc_bytes fuel1 rt_oracle d 0 2 = Ok (before ++ "<w xml:id=""w.4"" class=""a&lt;b&quot;"" processor=""proc2"">" ++ after).
Proof.
  destruct (careful_case [OAddElementTo 10 (mkElem ET_Word [A_Id "w.4"; A_Class "a<b"""] [DComment " a-b & c "; DAddElement (mkElem ET_TextContent [] [DText nasty] None None)] None None)]
    (fun d => is_some (get_elementdata d 0) && legal_saved "<w xml:id=""w.4"" class=""a&lt;b&quot;"" processor=""proc2"">" d)) as (d & T & P); [vm_compute; reflexivity|].
  apply andb_prop in P. destruct P as (P & Q). unfold legal_saved in Q. apply andb_prop in Q. destruct Q as (Q & B). apply andb_prop in Q. destruct Q as (A & N).
  destruct (get_elementdata d 0) as [e|] eqn:G; [|discriminate P]. destruct (bytes_have_spec _ _ B) as (b & a & S). exists d, e, b, a. split; [exact T|]. split; [exact G|]. split; [apply legal_docb_spec, A|].
  split; [intros k x GX; apply nodup_types_spec, (all_elements_spec _ _ N _ _ GX)|exact S].
Qed.
