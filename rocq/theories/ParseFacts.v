(* The parser's loop builds the XML tree. *)
From Coq Require Import String Ascii List Bool Arith NArith Lia.
From Verif Require Import Base BaseFacts Types TypesFacts SpecTable Attrib AttribFacts Element Store StoreFacts Metadata Document Select DocOps Xml Parser History Spec
  FrameFacts InvFacts DocFacts StoreThms EncodeFacts LinkFacts TreeFacts ForestFacts ParseSpec.
Import ListNotations.
Open Scope list_scope.

(* ---------------------------------------------------------------- blank text *)
Lemma blank_true s : blank s -> is_blank s = true.
Proof.
  intros B. induction B as [|c s I B IH]; [reflexivity|]. cbn in I.
  repeat match type of I with _ \/ _ => destruct I as [<-|I]; [cbn; exact IH|] end. destruct I.
Qed.
Lemma ascii_eq a n : nat_of_ascii a = n -> a = ascii_of_nat n.
Proof. intros <-. symmetry. apply ascii_nat_embedding. Qed.
Lemma ws1_in a : ascii_ws (nat_of_ascii a) = true -> In (String a "") white_space.
Proof.
  intros H. unfold ascii_ws in H. set (n := nat_of_ascii a) in *. assert (E : a = ascii_of_nat n) by (apply ascii_eq; reflexivity). rewrite E.
  apply orb_true_iff in H. rewrite andb_true_iff, !Nat.leb_le, Nat.eqb_eq in H.
  assert (D : n = 9 \/ n = 10 \/ n = 11 \/ n = 12 \/ n = 13 \/ n = 32) by lia. clearbody n.
  unfold white_space. cbn [map app]. destruct D as [->|[->|[->|[->|[->| ->]]]]]; cbn; auto 20.
Qed.
Lemma ws2_in a b : ws2 (nat_of_ascii a) (nat_of_ascii b) = true -> In (String a (String b "")) white_space.
Proof.
  unfold ws2. rewrite andb_true_iff, orb_true_iff, !Nat.eqb_eq. intros (A & B). apply ascii_eq in A. subst a.
  destruct B as [B|B]; apply ascii_eq in B; subst b; cbn; auto 20.
Qed.
Lemma in_range n lo hi : lo <= n <= hi -> In n (seq lo (S hi - lo)).
Proof. intros H. apply in_seq. lia. Qed.
Lemma ws3_in a b c : ws3 (nat_of_ascii a) (nat_of_ascii b) (nat_of_ascii c) = true -> In (String a (String b (String c ""))) white_space.
Proof.
  unfold ws3. rewrite !orb_true_iff, !andb_true_iff, !orb_true_iff, !andb_true_iff, !Nat.leb_le, !Nat.eqb_eq.
  intros [[[((A & B) & C)|((A & B) & C)]|((A & B) & C)]|((A & B) & C)]; apply ascii_eq in A, B; subst a b.
  - apply ascii_eq in C. subst c. cbn. auto 30.
  - assert (D : In (nat_of_ascii c) [128; 129; 130; 131; 132; 133; 134; 135; 136; 137; 138; 168; 169; 175]).
    { destruct C as [[[C|C]|C]|C].
      - apply in_range in C. cbn in C. cbn. tauto.
      - rewrite C. cbn. auto 20.
      - rewrite C. cbn. auto 20.
      - rewrite C. cbn. auto 20. }
    unfold white_space. rewrite !map_app, !in_app_iff. right. left. rewrite map_map. apply in_map_iff. exists (nat_of_ascii c). split; [|exact D].
    unfold bytes. cbn [map string_of_list_ascii]. rewrite ascii_nat_embedding. reflexivity.
  - apply ascii_eq in C. subst c. cbn. auto 30.
  - apply ascii_eq in C. subst c. cbn. auto 30.
Qed.
Lemma true_blank : forall n s, String.length s <= n -> is_blank s = true -> blank s.
Proof.
  induction n as [|n IH]; intros s L H; [destruct s; [constructor|cbn in L; lia]|]. destruct s as [|a r]; [constructor|]. cbn in L, H.
  destruct (ascii_ws (nat_of_ascii a)) eqn:W1.
  { apply (blank_more (String a "") r); [apply ws1_in, W1|]. apply IH; [lia|exact H]. }
  destruct r as [|b r1]; [discriminate|]. cbn in L. destruct (ws2 (nat_of_ascii a) (nat_of_ascii b)) eqn:W2.
  { apply (blank_more (String a (String b "")) r1); [apply ws2_in, W2|]. apply IH; [lia|exact H]. }
  destruct r1 as [|c r2]; [discriminate|]. cbn in L. destruct (ws3 (nat_of_ascii a) (nat_of_ascii b) (nat_of_ascii c)) eqn:W3; [|discriminate].
  apply (blank_more (String a (String b (String c ""))) r2); [apply ws3_in, W3|]. apply IH; [lia|exact H].
Qed.
Lemma blank_iff s : is_blank s = true <-> blank s.
Proof. split; [apply (true_blank (String.length s)); lia|apply blank_true]. Qed.
Lemma not_blank_iff s : is_blank s = false <-> ~ blank s.
Proof. rewrite <- blank_iff. destruct (is_blank s); split; congruence. Qed.

(* ---------------------------------------------------------------- attributes *)
Lemma feature_subset_shortcut key l s : feature_subset key l = Some s ->
  s = key /\ exists f, In (AcceptElementType f) l /\ In f (group_elementtypes EG_Feature) /\ p_subset (props f) = Some key.
Proof.
  induction l as [|[t|g] l IH]; cbn [feature_subset]; [discriminate| |].
  - assert (K : feature_subset key l = Some s -> s = key /\ exists f, In (AcceptElementType f) (AcceptElementType t :: l) /\ In f (group_elementtypes EG_Feature) /\ p_subset (props f) = Some key).
    { intros H. destruct (IH H) as (-> & f & I & R). split; [reflexivity|]. exists f. split; [right; exact I|exact R]. }
    destruct (group_contains EG_Feature t) eqn:GC; [|exact K]. destruct (p_subset (props t)) as [x|] eqn:P; [|exact K]. destruct (String.eqb_spec key x) as [->|]; [|exact K].
    intros H. injection H as <-. split; [reflexivity|]. exists t. split; [left; reflexivity|]. split; [|exact P]. unfold group_contains in GC. apply existsb_exists in GC. destruct GC as (y & Y & E).
    destruct (et_eqb_spec t y) as [->|]; [exact Y|discriminate].
  - intros H. destruct (IH H) as (-> & f & I & R). split; [reflexivity|]. exists f. split; [right; exact I|exact R].
Qed.
Lemma parse_attributes_reads O t l : forall x, parse_attributes O t l = Ok x ->
  exists fs, reads_attributes O t l (fst x) fs /\ snd x = map (fun p => feature_child (fst p) (snd p)) fs.
Proof.
  induction l as [|[a|] l IH]; intros x H; cbn [parse_attributes] in H; [injection H as <-; exists []; split; [constructor|reflexivity]| |discriminate].
  destruct (parse_attrib O (xa_key a) (xa_val a)) as [at_|e| |] eqn:P; try discriminate.
  - apply rbind_ok in H. destruct H as (y & Y & H). injection H as <-. destruct (IH _ Y) as (fs & R & E). exists fs. split; [constructor; assumption|exact E].
  - destruct (xa_val a) as [v|] eqn:V; [|discriminate]. destruct (feature_subset _ _) as [s|] eqn:F; [|discriminate]. apply rbind_ok in H. destruct H as (y & Y & H). injection H as <-.
    destruct (IH _ Y) as (fs & R & E). apply feature_subset_shortcut in F. destruct F as (-> & F). exists ((xa_key a, v) :: fs). cbn [fst snd map]. split; [|rewrite E; reflexivity].
    eapply reads_feature; try eassumption. rewrite V. exact P.
Qed.

(* ---------------------------------------------------------------- the relation [made] *)
Lemma element_sh d k t p l : element_is d k t p l <-> sh d k = Some (mkSh t p l).
Proof.
  unfold element_is, sh. split.
  - intros (e & -> & <- & <- & <-). reflexivity.
  - destruct (get_elementdata d k) as [e|]; [|discriminate]. intros H. injection H as <- <- <-. exists e. auto.
Qed.
Section Mono.
Context (O : oracle) (d d' : document) (n : nat) (G G' : nat -> ElementType -> list Attribute -> nat -> Prop)
  (GN : forall p t own k, G p t own k -> n <= k) (GG : forall p t own k, G p t own k -> G' p t own k)
  (SAME : forall j, n <= j -> sh d j <> None -> sh d' j = sh d j).
Lemma element_mono k t p l : n <= k -> element_is d k t p l -> element_is d' k t p l.
Proof. rewrite !element_sh. intros N H. rewrite SAME; [exact H|exact N|rewrite H; discriminate]. Qed.
Lemma made_features_mono p fs l m : made_features d G p fs l m -> made_features d' G' p fs l m.
Proof. intros H. induction H as [|s c k fs l m E Q H IH]; constructor; auto. eapply element_mono; eauto. Qed.
Lemma made_mono p nodes l m : made O d G p nodes l m -> made O d' G' p nodes l m.
Proof.
  intros H. induction H; try (constructor; auto; fail).
  eapply made_element; try eassumption; eauto; [|eapply made_features_mono; eassumption]. eapply element_mono; eauto.
Qed.
End Mono.
Lemma made_features_impl d (G G' : nat -> ElementType -> list Attribute -> nat -> Prop) p fs l m : (forall p t own k, G p t own k -> G' p t own k) -> made_features d G p fs l m -> made_features d G' p fs l m.
Proof. intros I. apply (made_features_mono d d 0 G G'); auto. intros. lia. Qed.
Lemma made_impl O d (G G' : nat -> ElementType -> list Attribute -> nat -> Prop) p nodes l m : (forall p t own k, G p t own k -> G' p t own k) -> made O d G p nodes l m -> made O d G' p nodes l m.
Proof. intros I. apply (made_mono O d d 0 G G'); auto. intros. lia. Qed.

(* only the elements and the declarations differ *)
Definition aside (a b : document) : Prop := b = doc_with_decls (doc_with_elements a (doc_elements b)) (doc_decls b).
Lemma aside_refl d : aside d d.
Proof. destruct d. reflexivity. Qed.
Lemma aside_trans a b c : aside a b -> aside b c -> aside a c.
Proof. unfold aside. intros A B. rewrite B, A. reflexivity. Qed.
Lemma aside_upd d k f : aside d (upd_element d k f).
Proof. unfold upd_element. destruct (get_elementdata d k); destruct d; reflexivity. Qed.
Lemma aside_upd_decl d k f : aside d (upd_declaration d k f).
Proof. unfold upd_declaration. destruct (get_declaration d k); destruct d; reflexivity. Qed.
Lemma aside_bind {A B} d (r : document * res A) (f : document -> A -> document * res B) : aside d (fst r) -> (forall d1 a, r = (d1, Ok a) -> aside d1 (fst (f d1 a))) -> aside d (fst (sbind r f)).
Proof. destruct r as [d1 [a| | |]]; cbn; intros H K; try exact H. eapply aside_trans; [exact H|apply K; reflexivity]. Qed.
Lemma aside_pure {A B} d (r : res A) (f : document -> A -> document * res B) : (forall a, r = Ok a -> aside d (fst (f d a))) -> aside d (fst (sbind (d, r) f)).
Proof. intros H. apply aside_bind; [apply aside_refl|]. intros d1 a E. inversion E; subst. apply H. reflexivity. Qed.
Lemma aside_assoc d k pk : aside d (assoc_processor d k pk).
Proof. unfold assoc_processor. apply aside_upd_decl. Qed.
Lemma aside_add_decl d x : aside d (fst (add_declaration d x)).
Proof. rewrite add_declaration_fst. destruct d. reflexivity. Qed.
Lemma aside_declare d t s a f : aside d (fst (declare d t s a f)).
Proof.
  unfold declare. destruct (get_declaration_key_by_id d (index_id t s)); [apply aside_refl|]. apply aside_bind.
  - match goal with |- aside d (fst (match ?x with Some _ => _ | None => _ end)) => destruct x end; [apply aside_refl|apply aside_add_decl].
  - intros d1 k _. cbn [fst]. destruct (doc_active d1); [apply aside_assoc|apply aside_refl].
Qed.
Lemma aside_intern d dk f r : aside d (fst (intern_opt d dk f r)).
Proof.
  unfold intern_opt. destruct r as [[c|]| | |]; try apply aside_refl. destruct (get_declaration d dk) as [x|]; [|apply aside_refl].
  destruct (f x c) as [y q]. cbn [fst]. destruct d; reflexivity.
Qed.
Lemma aside_encode_refs d e ctx : aside d (fst (encode_refs d e ctx)).
Proof.
  unfold encode_refs. destruct (et_annotationtype (e_type e)) as [t|].
  - apply aside_pure. intros s _. apply aside_bind; [apply aside_declare|]. intros d1 dk _.
    pose proof (aside_intern d1 dk d_add_class (e_class e)) as I. destruct (intern_opt d1 dk d_add_class (e_class e)) as [d2 ck]. cbn [fst] in I.
    destruct (get_declaration d2 dk) as [dec|]; [|exact I]. destruct (d_default_processor dec); [exact I|]. destruct (doc_active d2); exact I.
  - destruct (e_type e); try apply aside_refl. destruct ctx as [pk|]; [|apply aside_refl]. apply aside_pure. intros parent _. apply aside_pure. intros t _. apply aside_pure. intros s _.
    apply aside_bind; [apply aside_declare|]. intros d1 dk _.
    pose proof (aside_intern d1 dk d_add_subclass (e_class e)) as I. destruct (intern_opt d1 dk d_add_subclass (e_class e)) as [d2 ck]. cbn [fst] in I.
    pose proof (aside_intern d2 dk d_add_subset (e_subset e)) as I2. destruct (intern_opt d2 dk d_add_subset (e_subset e)) as [d3 sk]. cbn [fst] in I2 |- *. eapply aside_trans; eassumption.
Qed.
Lemma aside_encode d e ctx : aside d (fst (encode d e ctx)).
Proof.
  unfold encode. destruct (negb (e_encodable e)); [apply aside_refl|]. apply aside_bind; [apply aside_encode_refs|]. intros d1 n _. cbn [fst]. unfold encode_assoc.
  destruct (en_test _); [|apply aside_refl]. destruct (en_dec _); [|apply aside_refl]. destruct (en_proc _); [apply aside_assoc|apply aside_refl].
Qed.
Lemma aside_store d e ctx : aside d (fst (store_add d e ctx)).
Proof.
  unfold store_add. apply aside_bind; [destruct (e_encodable e); [apply aside_encode|apply aside_refl]|]. intros d1 e1 _.
  destruct (st_add _ _ _ (doc_elements d1) e1) as [s r]. cbn [fst]. destruct d1; reflexivity.
Qed.
Lemma aside_attach d p c : aside d (fst (attach_element d p c)).
Proof.
  unfold attach_element. destruct (get_elementdata d p); [|apply aside_refl]. destruct (get_elementdata d c) as [ce|]; [|apply aside_refl]. cbn [fst].
  eapply aside_trans; [apply aside_upd|]. eapply aside_trans; [apply aside_upd|]. destruct (e_parent ce); [apply aside_upd|apply aside_refl].
Qed.
Lemma aside_post fuel d k st : aside d (fst (post_add fuel d k st)).
Proof.
  unfold post_add. destruct (get_elementdata d k) as [e|]; [|apply aside_refl].
  assert (L : aside d (fst (if group_contains EG_Layer (e_type e) && negb (e_has_attrib e AB_SET)
             then let! d0, dk := (d, layer_declaration fuel d e) in
                  match dk with
                  | Some dk0 => (upd_element d0 k (fun x => e_with_attribs x [A_DeclarationRef dk0]), Ok tt)
                  | None => (d0, Ok tt)
                  end
             else (d, Ok tt)))).
  { destruct (group_contains EG_Layer (e_type e) && negb (e_has_attrib e AB_SET)); [|apply aside_refl].
    apply aside_pure. intros [dk|] _; [apply aside_upd|apply aside_refl]. }
  destruct (e_type e); try exact L. unfold post_add_wref. destruct (attribs_last_idref (e_attribs e) None) as [id|]; [|apply aside_refl].
  apply aside_pure. intros [sk|] _; [|apply aside_refl]. apply aside_pure. intros [tk|] _; [apply aside_upd|apply aside_refl].
Qed.
Lemma aside_push d st s mk : aside d (push_data d st s mk).
Proof. unfold push_data. destruct (is_blank s); [apply aside_refl|]. destruct st; [apply aside_refl|apply aside_upd]. Qed.

(* nothing stored is lost, and nothing but elements and declarations is different *)
Definition follows (a b : document) : Prop := doc_le a b /\ aside a b.
Lemma follows_refl d : follows d d.
Proof. split; [apply doc_le_refl|apply aside_refl]. Qed.
Lemma follows_trans a b c : follows a b -> follows b c -> follows a c.
Proof. intros (A & B) (A' & B'). split; [eapply doc_le_trans; eassumption|eapply aside_trans; eassumption]. Qed.
Lemma prims_doc_le a b : prims normal a b -> doc_le a b.
Proof. apply (prims_le normal), normal_ok. Qed.
Lemma follows_attach d p c d' u : attach_element d p c = (d', Ok u) -> follows d d'.
Proof. intros H. pose proof (attach_p0 normal d p c) as P. pose proof (aside_attach d p c) as M. rewrite H in P, M. split; [apply prims_doc_le, lift, P|exact M]. Qed.
Lemma follows_post fuel d k st d' u : post_add fuel d k st = (d', Ok u) -> follows d d'.
Proof. intros H. pose proof (post_add_p0 normal fuel d k st) as P. pose proof (aside_post fuel d k st) as M. rewrite H in P, M. split; [apply prims_doc_le, lift, P|exact M]. Qed.
Lemma follows_push d st s mk : (forall s, is_add (mk s) = false) -> follows d (push_data d st s mk).
Proof. intros N. split; [apply prims_doc_le, lift, push_data_p0, N|apply aside_push]. Qed.
Lemma follows_store d e ctx d1 k : textual (e_attribs e) -> store_add d e ctx = (d1, Ok k) -> follows d d1.
Proof.
  intros T H. pose proof (store_add_prims normal d e ctx T) as P. pose proof (aside_store d e ctx) as C. rewrite H in P, C. split; [apply prims_doc_le, P|exact C].
Qed.
Lemma aside_procs a b : aside a b -> doc_procs b = doc_procs a.
Proof. intros ->. reflexivity. Qed.
Lemma aside_active a b : aside a b -> doc_active b = doc_active a.
Proof. intros ->. reflexivity. Qed.

(* the element was stored from a tag with these attributes, in a document between d0 and d *)
Definition stored (d0 : document) (n : nat) (d : document) (p : nat) (t : ElementType) (own : list Attribute) (k : nat) : Prop :=
  n <= k /\ exists dA dB data, full_ok dA /\ follows d0 dA /\ new_id dA (mkElem t own data None None) /\ (forall x, In x data -> exists s, x = DText s) /\ textual own /\ sh dA p <> None /\
    store_add dA (mkElem t own data None None) (Some p) = (dB, Ok k) /\ follows dB d.
Lemma stored_le d0 n d p t own k : stored d0 n d p t own k -> n <= k.
Proof. intros (H & _). exact H. Qed.
Lemma stored_mono d0 d1 n m d d' : follows d1 d0 -> m <= n -> follows d d' -> forall p t own k, stored d0 n d p t own k -> stored d1 m d' p t own k.
Proof.
  intros L1 M L2 p t own k (N & dA & dB & data & A & B & C & Z & D & E & F & X). split; [lia|]. exists dA, dB, data.
  repeat (split; [try assumption; try (eapply follows_trans; eassumption)|]). eapply follows_trans; eassumption.
Qed.

(* what a step does to the old elements: only the content of the top of the stack grows *)
Record grows_at (d d' : document) (top : nat) (l : list datatype) (n : nat) : Prop := {
  ga_prims : prims normal d d';
  ga_follows : follows d d';
  ga_len : sh_len d' = sh_len d + n;
  ga_old : forall j, j < sh_len d -> j <> top -> sh d' j = sh d j;
  ga_top : forall s, sh d top = Some s -> sh d' top = Some (mkSh (s_type s) (s_parent s) (s_content s ++ l)) }.
Lemma grows_at_nil d top : grows_at d d top [] 0.
Proof. split; [apply rtc_refl|apply follows_refl|lia|auto|]. intros [t p c] H. cbn. rewrite app_nil_r. exact H. Qed.
Lemma grows_at_trans d d1 d2 top l m l1 m1 : top < sh_len d -> grows_at d d1 top l m -> grows_at d1 d2 top l1 m1 -> grows_at d d2 top (l ++ l1) (m + m1).
Proof.
  intros T [A1 E1 B1 C1 D1] [A2 E2 B2 C2 D2]. split; [eapply rtc_trans; eassumption|eapply follows_trans; eassumption|lia| |].
  - intros j J N. rewrite C2 by (try assumption; lia). auto.
  - intros s H. rewrite (D2 _ (D1 _ H)). cbn [s_type s_parent s_content]. rewrite app_assoc. reflexivity.
Qed.
Lemma sh_spar d k s : sh d k = Some s -> s_parent s = None -> parent_of d k = None.
Proof. intros H P. rewrite <- sh_parent. unfold spar. rewrite H. exact P. Qed.
(* storing an element value without children, then attaching it to an element *)
Lemma store_attach d0 d e p d1 k d2 : full_ok d -> follows d0 d -> forest d -> new_id d e -> textual (e_attribs e) -> e_key e = None -> e_parent e = None -> (forall x, In x (e_data e) -> exists s, x = DText s) ->
  sh d p <> None -> store_add d e (Some p) = (d1, Ok k) -> attach_element d1 p k = (d2, Ok tt) ->
  k = sh_len d /\ grows_at d d2 p [DElement k] 1 /\ element_is d2 k (e_type e) (Some p) (e_data e) /\ stored d0 (sh_len d) d2 p (e_type e) (e_attribs e) k.
Proof.
  intros FU LE F N T EK EP ED XP S A.
  assert (ND : forall x, ~ In (DAddElement x) (e_data e)) by (intros x I; destruct (ED _ I); discriminate).
  assert (CK : child_keys (e_data e) = []). { clear - ED. induction (e_data e) as [|x l IH]; [reflexivity|]. destruct (ED x (or_introl eq_refl)) as (s & ->). cbn. apply IH. intros y Y. apply ED. right; exact Y. }
  assert (CO : content e = e_data e). { unfold content. apply filter_id. intros x I. destruct (ED x I) as (s & ->). reflexivity. }
  destruct (forest_store d e (Some p) d1 k F N EP ND CK S) as (KE & L1 & F1 & S1 & I1).
  assert (PL : p < sh_len d). { destruct (sh d p) eqn:G; [eapply sh_lt, G|congruence]. }
  assert (SK : sh d1 k = Some (shape_of e)) by (rewrite S1, Nat.eqb_refl; reflexivity).
  destruct (attach_parentless d1 p k d2) as (_ & _ & S2 & L2 & I2); [lia|eapply sh_spar; [exact SK|exact EP]|exact A|].
  assert (PR : prims normal d d2).
  { eapply rtc_trans; [|apply lift]. { pose proof (store_add_prims normal d e (Some p) T) as Q. rewrite S in Q. exact Q. } pose proof (attach_p0 normal d1 p k) as Q. rewrite A in Q. exact Q. }
  assert (P2 : prims normal d1 d2). { apply lift. pose proof (attach_p0 normal d1 p k) as Q. rewrite A in Q. exact Q. }
  pose proof (follows_store _ _ _ _ _ T S) as FS1. pose proof (follows_attach _ _ _ _ _ A) as FS2.
  split; [exact KE|]. split; [|split].
  - split; [exact PR|eapply follows_trans; eassumption|lia| |].
    + intros j J NE. rewrite S2, S1. destruct (Nat.eqb_spec j k) as [->|]; [lia|]. destruct (Nat.eqb_spec j p) as [->|]; [congruence|].
      destruct (sh d j) as [[t q c]|]; [|reflexivity]. cbn. rewrite app_nil_r. reflexivity.
    + intros s H. rewrite S2, S1. destruct (Nat.eqb_spec p k) as [->|]; [lia|]. rewrite H, Nat.eqb_refl. reflexivity.
  - apply element_sh. rewrite S2, SK. destruct (Nat.eqb_spec k p) as [->|]; [lia|]. rewrite Nat.eqb_refl. cbn. rewrite CO, app_nil_r. reflexivity.
  - split; [lia|]. exists d, d1, (e_data e). destruct e as [t a da ke pa]. cbn in *. subst ke pa. repeat (split; [assumption|]). exact FS2.
Qed.
Lemma grows_at_le d d' top l n : grows_at d d' top l n -> follows d d'.
Proof. apply ga_follows. Qed.
Lemma grows_at_has d d' top l n p : forest d -> grows_at d d' top l n -> sh d p <> None -> sh d' p <> None.
Proof.
  intros F G X. destruct (sh d p) as [s|] eqn:E; [|congruence]. destruct (Nat.eq_dec p top) as [->|N]; [rewrite (ga_top _ _ _ _ _ G _ E); discriminate|].
  rewrite (ga_old _ _ _ _ _ G) by (try assumption; eapply sh_lt, E). rewrite E. discriminate.
Qed.
Lemma features_added d0 key fs : forall d d', full_ok d -> follows d0 d -> forest d -> sh d key <> None -> add_attr_children d key (map (fun p => feature_child (fst p) (snd p)) fs) = (d', Ok tt) ->
  exists fl, grows_at d d' key fl (length fs) /\ made_features d' (stored d0 (sh_len d) d') key fs fl (length fs) /\ forest d' /\ st_index (doc_elements d') = st_index (doc_elements d).
Proof.
  induction fs as [|[s v] fs IH]; intros d d' FU LE F X H.
  { cbn in H. injection H as <-. exists []. split; [apply grows_at_nil|]. split; [constructor|]. auto. }
  pose proof (add_attr_children_forest key (map (fun p => feature_child (fst p) (snd p)) ((s, v) :: fs))) as AF.
  assert (FL : forall gs c, In c (map (fun p : string * string => feature_child (fst p) (snd p)) gs) -> feature_like c).
  { intros gs c I. apply in_map_iff in I. destruct I as ((a & b) & <- & _). exists a, b. reflexivity. }
  destruct (AF (FL _) d d' F X H) as (FF & _ & FI). cbn [map fst snd add_attr_children] in H.
  apply sbind_ok in H. destruct H as (d1 & ck & S & H). apply sbind_ok in H. destruct H as (d2 & u & A & H). destruct u.
  assert (N : new_id d (feature_child s v)) by (intros id E; discriminate E).
  assert (T : textual [A_Subset s; A_Class v]) by (intros a [<-|[<-|[]]]; reflexivity).
  assert (ED : forall x : datatype, In x [DText v] -> exists s, x = DText s) by (intros x [<-|[]]; eauto).
  destruct (store_attach d0 d (feature_child s v) key d1 ck d2 FU LE F N T eq_refl eq_refl ED X S A) as (CK & G & E & ST).
  assert (AF1 : forest d2 /\ grown d d2 /\ st_index (doc_elements d2) = st_index (doc_elements d)).
  { apply (add_attr_children_forest key [feature_child s v]); [intros c [<-|[]]; exists s, v; reflexivity|exact F|exact X|]. cbn [add_attr_children]. unfold sbind. rewrite S, A. reflexivity. }
  destruct AF1 as (F2 & _ & I2).
  assert (FU2 : full_ok d2) by (eapply full_prims; [apply G|exact FU]).
  assert (LE2 : follows d d2) by (eapply grows_at_le, G).
  destruct (IH d2 d' FU2) as (fl & G2 & M2 & F3 & I3); [eapply follows_trans; eassumption|exact F2|exact (grows_at_has _ _ _ _ _ _ F G X)|exact H|].
  exists (DElement ck :: fl). assert (KL : key < sh_len d). { destruct (sh d key) eqn:Q; [eapply sh_lt, Q|congruence]. }
  pose proof (ga_len _ _ _ _ _ G) as GL.
  split; [exact (grows_at_trans d d2 d' key [DElement ck] 1 fl (length fs) KL G G2)|]. split; [|split; [exact FF|exact FI]].
  cbn [length]. constructor.
  - cbn [feature_child e_type e_data] in E. eapply (element_mono d2 d' (sh_len d)); [|lia|exact E].
    intros j J XJ. destruct (Nat.eq_dec j key); [lia|]. apply (ga_old _ _ _ _ _ G2); [|assumption]. destruct (sh d2 j) eqn:Q; [eapply sh_lt, Q|congruence].
  - eapply stored_mono; [apply follows_refl|apply le_n|eapply grows_at_le, G2|exact ST].
  - eapply made_features_impl; [|exact M2]. intros q t own k. apply stored_mono; [apply follows_refl|lia|apply follows_refl].
Qed.

(* ---------------------------------------------------------------- the loop *)
Lemma step_of fuel O d st ev l d' : parse_elements_loop fuel O d st (ev :: l) = (d', Ok tt) ->
  exists d1 p, elements_step fuel O d st ev = (d1, Ok p) /\ match p with PContinue st1 => parse_elements_loop fuel O d1 st1 l = (d', Ok tt) | PBreak => d1 = d' end.
Proof.
  cbn [parse_elements_loop]. intros H. apply sbind_ok in H. destruct H as (d1 & p & S & H). exists d1, p. split; [exact S|]. destruct p; [exact H|]. injection H as ->. reflexivity.
Qed.
Lemma push_grows d top st s mk : (forall s, is_add (mk s) = false) -> (forall s, is_spanref (mk s) = false) -> is_blank s = false -> grows_at d (push_data d (top :: st) s mk) top [mk s] 0.
Proof.
  intros NA NS B. pose proof (follows_push d (top :: st) s mk NA) as FP. unfold push_data in *. rewrite B in *. split.
  - apply lift, upd_push_p0, NA.
  - exact FP.
  - unfold sh_len. pose proof (upd_len d top (fun e => e_push e (mk s))) as Q. unfold sh_len in Q. lia.
  - intros j J N. unfold sh. rewrite get_upd_element. destruct (Nat.eqb_spec j top); [congruence|reflexivity].
  - intros x. unfold sh. rewrite get_upd_element, Nat.eqb_refl. destruct (get_elementdata d top) as [e|]; [|discriminate]. intros H. injection H as <-. cbn. unfold shape_of, content. cbn. rewrite filter_app. cbn. rewrite NS. reflexivity.
Qed.
Lemma has_lt d k : sh d k <> None -> k < sh_len d.
Proof. intros X. destruct (sh d k) eqn:G; [eapply sh_lt, G|congruence]. Qed.

Section Content.
Context (fuel : nat) (O : oracle) (d0 : document).
Definition builds (d : document) (top : nat) (st : list nat) (nodes : list xnode) (more : list event) (d' : document) : Prop :=
  exists d1 l n, parse_elements_loop fuel O d1 (top :: st) more = (d', Ok tt) /\ pinv d1 (top :: st) more /\
    grows_at d d1 top l n /\ made O d1 (stored d0 (sh_len d) d1) top nodes l n.
(* one node, then the rest *)
Lemma builds_next d d1 top st x l n nodes more d' : top < sh_len d -> grows_at d d1 top l n ->
  (forall d2 m k, follows d1 d2 -> (forall j, sh_len d <= j -> sh d1 j <> None -> sh d2 j = sh d1 j) -> made O d2 (stored d0 (sh_len d) d2) top nodes m k -> made O d2 (stored d0 (sh_len d) d2) top (x :: nodes) (l ++ m) (n + k)) ->
  builds d1 top st nodes more d' -> builds d top st (x :: nodes) more d'.
Proof.
  intros T G M (d2 & m & k & P & I & G2 & M2). exists d2, (l ++ m), (n + k). split; [exact P|]. split; [exact I|]. split; [eapply grows_at_trans; eassumption|].
  apply M; [eapply grows_at_le, G2| |].
  - intros j J X. apply (ga_old _ _ _ _ _ G2); [apply has_lt, X|lia].
  - eapply made_impl; [|exact M2]. intros p t own q. apply stored_mono; [apply follows_refl|rewrite (ga_len _ _ _ _ _ G); lia|apply follows_refl].
Qed.
Lemma top_lt d top st l : pinv d (top :: st) l -> top < sh_len d.
Proof. intros P. apply has_lt. apply (pi_open _ _ _ P). left. reflexivity. Qed.
Lemma builds_data d top st nodes ev s mk x m more d' : (forall s, is_add (mk s) = false) -> (forall s, is_spanref (mk s) = false) -> (forall s c, mk s <> DElement c) ->
  elements_step fuel O d (top :: st) ev = (push_data d (top :: st) s mk, Ok (PContinue (top :: st))) ->
  (forall d2 G p l n, ~ blank s -> made O d2 G p nodes l n -> made O d2 G p (x :: nodes) (mk s :: l) n) ->
  (forall d2 G p l n, blank s -> made O d2 G p nodes l n -> made O d2 G p (x :: nodes) l n) ->
  (forall d, full_ok d -> follows d0 d -> pinv d (top :: st) (m ++ more) -> parse_elements_loop fuel O d (top :: st) (m ++ more) = (d', Ok tt) -> builds d top st nodes more d') ->
  full_ok d -> follows d0 d -> pinv d (top :: st) (ev :: m ++ more) -> parse_elements_loop fuel O d (top :: st) (ev :: m ++ more) = (d', Ok tt) -> builds d top st (x :: nodes) more d'.
Proof.
  intros NA NS NE ST M1 M2 IH FU LE PI H. apply step_of in H. destruct H as (d1 & q & S & H). rewrite ST in S. injection S as <- <-.
  pose proof (top_lt _ _ _ _ PI) as TL. pose proof (elements_step_pinv _ _ _ _ _ _ _ _ PI ST) as PI1. cbn in PI1.
  destruct (is_blank s) eqn:B.
  - assert (E : push_data d (top :: st) s mk = d) by (unfold push_data; rewrite B; reflexivity). rewrite E in *.
    eapply (builds_next d d); [exact TL|apply grows_at_nil| |apply IH; assumption]. intros d2 l n _ _ K. cbn [app plus]. apply M2; [apply blank_iff, B|exact K].
  - pose proof (push_grows d top st s mk NA NS B) as G. eapply (builds_next d); [exact TL|exact G| |apply IH; try assumption].
    + intros d2 l n _ _ K. cbn [app plus]. apply M1; [apply not_blank_iff, B|exact K].
    + eapply full_prims; [apply G|exact FU].
    + eapply follows_trans; [exact LE|eapply grows_at_le, G].
Qed.
Lemma parse_elem_reads name attrs x : parse_err (parse_elem O name attrs) = Ok x ->
  exists t own fs, et_from_str name = Some t /\ reads_attributes O t attrs own fs /\ fst x = mkElem t own [] None None /\ snd x = map (fun p => feature_child (fst p) (snd p)) fs /\
    textual own /\ (forall id, attribs_id own = Some id -> In id (tag_ids attrs)).
Proof.
  intros H. apply parse_err_ok in H. unfold parse_elem in H. apply rbind_ok in H. destruct H as (t & E & H). apply ok_or_ok in E. apply rbind_ok in H. destruct H as (y & Y & H).
  apply parse_err_ok in Y. injection H as <-. destruct (parse_attributes_spec _ _ _ _ Y) as (A & B & _). destruct (parse_attributes_reads _ _ _ _ Y) as (fs & R & F).
  exists t, (fst y), fs. auto 10.
Qed.
Lemma new_id_tag d top st ev attrs l t own data : pinv d (top :: st) (ev :: l) -> (exists ns name, ev = EvStart ns name attrs \/ ev = EvEmpty ns name attrs) ->
  (forall id, attribs_id own = Some id -> In id (tag_ids attrs)) -> new_id d (mkElem t own data None None).
Proof.
  intros PI (ns & name & E) IDS id ID. apply not_has_id. intros Q. apply (pi_ids _ _ _ PI id Q). unfold xml_ids. destruct E as [-> | ->]; cbn [flat_map]; apply in_app_iff; left; apply IDS, ID.
Qed.
(* a start tag: the element and the features from its attributes *)
Lemma start_step d top st name attrs l d2 p : full_ok d -> follows d0 d -> pinv d (top :: st) (EvStart NsFolia name attrs :: l) ->
  elements_step fuel O d (top :: st) (EvStart NsFolia name attrs) = (d2, Ok p) ->
  exists t own fs fl, let k := sh_len d in p = PContinue (k :: top :: st) /\ et_from_str name = Some t /\ reads_attributes O t attrs own fs /\
    prims normal d d2 /\ follows d d2 /\ sh_len d2 = S (length fs + sh_len d) /\ (forall j, j < k -> sh d2 j = sh d j) /\ sh d2 k = Some (mkSh t None fl) /\
    stored d0 k d2 top t own k /\ made_features d2 (stored d0 (S k) d2) k fs fl (length fs).
Proof.
  intros FU LE PI H. pose proof (pi_forest _ _ _ PI) as F. pose proof (top_lt _ _ _ _ PI) as TL.
  assert (PP : prims normal d d2).
  { pose proof (elements_step_prims normal fuel O [EvStart NsFolia name attrs] d (top :: st) (EvStart NsFolia name attrs) (load_ok_normal O _) (or_introl eq_refl)) as Q. rewrite H in Q. exact Q. }
  cbn [elements_step] in H. apply sbind_ok in H. destruct H as (dz & x & X & H). injection X as <- X. apply sbind_ok in H. destruct H as (d1 & key & S & H).
  apply map_err_ok in S. apply sbind_ok in H. destruct H as (d2' & u & A & H). injection H as -> <-. destruct u.
  destruct (parse_elem_reads _ _ _ X) as (t & own & fs & ET & RA & EX & EF & TX & IDS). rewrite EX in S. rewrite EF in A.
  assert (NI : new_id d (mkElem t own [] None None)) by (eapply new_id_tag; [exact PI|exists NsFolia, name; left; reflexivity|exact IDS]).
  destruct (forest_store d (mkElem t own [] None None) (Some top) d1 key F NI eq_refl (fun _ i => i) eq_refl S) as (EK & L1 & F1 & S1 & I1).
  assert (P1 : prims normal d d1). { pose proof (store_add_prims normal d (mkElem t own [] None None) (Some top) TX) as Q. cbn [hd_error] in S. rewrite S in Q. exact Q. }
  assert (SK : sh d1 key = Some (mkSh t None [])) by (rewrite S1, Nat.eqb_refl; reflexivity).
  assert (FU1 : full_ok d1) by (eapply full_prims; eassumption).
  assert (LE1 : follows d0 d1) by (eapply follows_trans; [exact LE|eapply follows_store; [|exact S]; exact TX]).
  destruct (features_added d0 key fs d1 d2 FU1 LE1 F1) as (fl & G & M & F2 & I2); [rewrite SK; discriminate|exact A|].
  exists t, own, fs, fl. cbv zeta. rewrite <- EK. split; [reflexivity|]. split; [exact ET|]. split; [exact RA|]. split; [exact PP|].
  split; [eapply follows_trans; [eapply follows_store; [|exact S]; exact TX|apply G]|].
  split; [rewrite (ga_len _ _ _ _ _ G); lia|]. split; [|split; [|split]].
  - intros j J. rewrite (ga_old _ _ _ _ _ G) by lia. rewrite S1. destruct (Nat.eqb_spec j key); [lia|reflexivity].
  - rewrite (ga_top _ _ _ _ _ G _ SK). reflexivity.
  - split; [lia|]. exists d, d1, []. repeat (split; [assumption|]). split; [intros x0 []|]. repeat (split; [assumption|]). split; [|split; [exact S|eapply grows_at_le, G]].
    apply (pi_open _ _ _ PI). left. reflexivity.
  - rewrite L1, <- EK in M. exact M.
Qed.
(* an end tag: the element on top of the stack becomes the last child of the next *)
Lemma end_step d key top st name l d2 p : pinv d (key :: top :: st) (EvEnd NsFolia name :: l) ->
  elements_step fuel O d (key :: top :: st) (EvEnd NsFolia name) = (d2, Ok p) ->
  p = PContinue (top :: st) /\ prims normal d d2 /\ follows d d2 /\ sh_len d2 = sh_len d /\
  forall j, sh d2 j = option_map (fun s => mkSh (s_type s) (if Nat.eqb j key then Some top else s_parent s) (s_content s ++ if Nat.eqb j top then [DElement key] else [])) (sh d j).
Proof.
  intros PI H.
  assert (PP : prims normal d d2).
  { pose proof (elements_step_prims normal fuel O [EvEnd NsFolia name] d (key :: top :: st) (EvEnd NsFolia name) (load_ok_normal O _) (or_introl eq_refl)) as Q. rewrite H in Q. exact Q. }
  cbn [elements_step] in H. apply sbind_ok in H. destruct H as (d1 & u & A & H). pose proof (post_add_sh fuel d key (Some (rev (top :: st)))) as PA. rewrite A in PA. cbn [fst] in PA.
  destruct (get_elementdata d1 key) as [e|]; [|discriminate]. apply sbind_ok in H. destruct H as (dz & et & E & H). injection E as <- E.
  destruct (et_eqb (e_type e) et); [|discriminate]. apply sbind_ok in H. destruct H as (d2' & v & B & H). injection H as -> <-. destruct v.
  split; [reflexivity|]. split; [exact PP|]. split; [eapply follows_trans; [eapply follows_post, A|eapply follows_attach, B]|]. destruct PA as (SA & LA & IA).
  assert (NE : top <> key). { pose proof (pi_nodup _ _ _ PI) as N. inversion N as [|? ? NI _]; subst. intros ->. apply NI. left. reflexivity. }
  assert (PK : parent_of d1 key = None). { rewrite <- sh_parent. unfold spar. rewrite SA. apply (pi_open _ _ _ PI). left. reflexivity. }
  destruct (attach_parentless d1 top key d2 NE PK B) as (_ & _ & S2 & L2 & _). split; [lia|]. intros j. rewrite S2, SA. reflexivity.
Qed.
Lemma builds_element d top st name attrs inside li nodes m more d' :
  (forall top st more d d', full_ok d -> follows d0 d -> pinv d (top :: st) (li ++ more) -> parse_elements_loop fuel O d (top :: st) (li ++ more) = (d', Ok tt) -> builds d top st inside more d') ->
  (forall top st more d d', full_ok d -> follows d0 d -> pinv d (top :: st) (m ++ more) -> parse_elements_loop fuel O d (top :: st) (m ++ more) = (d', Ok tt) -> builds d top st nodes more d') ->
  full_ok d -> follows d0 d -> pinv d (top :: st) (EvStart NsFolia name attrs :: li ++ EvEnd NsFolia name :: m ++ more) ->
  parse_elements_loop fuel O d (top :: st) (EvStart NsFolia name attrs :: li ++ EvEnd NsFolia name :: m ++ more) = (d', Ok tt) ->
  builds d top st (XElement name attrs inside :: nodes) more d'.
Proof.
  intros IH1 IH2 FU LE PI H. pose proof (top_lt _ _ _ _ PI) as TL. apply step_of in H. destruct H as (d2 & p & SS & H).
  destruct (start_step _ _ _ _ _ _ _ _ FU LE PI SS) as (t & own & fs & fl & X). cbv zeta in X. destruct X as (-> & ET & RA & P2 & FO2 & L2 & O2 & K2 & ST & MF).
  pose proof (elements_step_pinv _ _ _ _ _ _ _ _ PI SS) as PI2. cbv iota in PI2. set (key := sh_len d) in *.
  assert (FU2 : full_ok d2) by (eapply full_prims; eassumption).
  assert (LE2 : follows d0 d2) by (eapply follows_trans; [exact LE|exact FO2]).
  destruct (IH1 key (top :: st) _ d2 d' FU2 LE2 PI2 H) as (d3 & il & inn & H3 & PI3 & G3 & M3).
  apply step_of in H3. destruct H3 as (d5 & q & S5 & H5). destruct (end_step _ _ _ _ _ _ _ _ PI3 S5) as (-> & P5 & FO5 & L5 & X5).
  pose proof (elements_step_pinv _ _ _ _ _ _ _ _ PI3 S5) as PI5. cbv iota in PI5.
  assert (P : prims normal d d5) by (eapply rtc_trans; [exact P2|eapply rtc_trans; [apply G3|exact P5]]).
  assert (FO : follows d d5) by (eapply follows_trans; [exact FO2|eapply follows_trans; [apply G3|exact FO5]]).
  assert (L : sh_len d5 = sh_len d + S (length fs + inn)) by (rewrite L5, (ga_len _ _ _ _ _ G3), L2; lia).
  assert (KT : key <> top) by lia.
  assert (K3 : sh d3 key = Some (mkSh t None (fl ++ il))) by (rewrite (ga_top _ _ _ _ _ G3 _ K2); reflexivity).
  assert (K5 : sh d5 key = Some (mkSh t (Some top) (fl ++ il))).
  { rewrite X5, K3, Nat.eqb_refl. destruct (Nat.eqb_spec key top); [contradiction|]. cbn. rewrite app_nil_r. reflexivity. }
  assert (N5 : forall j, j <> key -> j <> top -> sh d5 j = sh d3 j).
  { intros j A B. rewrite X5. destruct (Nat.eqb_spec j key); [contradiction|]. destruct (Nat.eqb_spec j top); [contradiction|]. destruct (sh d3 j) as [[a b c]|]; [|reflexivity]. cbn. rewrite app_nil_r. reflexivity. }
  assert (G5 : grows_at d d5 top [DElement key] (S (length fs + inn))).
  { split; [exact P|exact FO|exact L| |].
    - intros j J N. fold key in J. rewrite N5 by lia. rewrite (ga_old _ _ _ _ _ G3) by lia. apply O2, J.
    - intros s E. rewrite X5, (ga_old _ _ _ _ _ G3) by lia. rewrite O2 by exact TL. rewrite E, Nat.eqb_refl. destruct (Nat.eqb_spec top key); [lia|]. reflexivity. }
  eapply (builds_next d d5); [exact TL|exact G5| |apply IH2; [eapply full_prims; eassumption| |exact PI5|exact H5]].
  2:{ eapply follows_trans; [exact LE|exact FO]. }
  intros d6 rl n LE6 S6 MR. cbn [app plus]. fold key in S6, MR |- *.
  assert (L36 : follows d3 d6) by (eapply follows_trans; [exact FO5|exact LE6]).
  assert (L26 : follows d2 d6) by (eapply follows_trans; [eapply grows_at_le, G3|exact L36]).
  assert (S36 : forall j, Datatypes.S key <= j -> sh d3 j <> None -> sh d6 j = sh d3 j).
  { intros j J X. rewrite S6; [apply N5; lia|lia|]. rewrite N5 by lia. exact X. }
  assert (S26 : forall j, Datatypes.S key <= j -> sh d2 j <> None -> sh d6 j = sh d2 j).
  { intros j J X. assert (Q : sh d3 j = sh d2 j) by (apply (ga_old _ _ _ _ _ G3); [apply has_lt, X|lia]). rewrite S36; [exact Q|exact J|]. rewrite Q. exact X. }
  apply (made_element O d6 (stored d0 key d6) top name attrs inside nodes t own fs key fl il rl (length fs) inn n); auto.
  - apply element_sh. rewrite S6; [exact K5|lia|rewrite K5; discriminate].
  - eapply stored_mono; [apply follows_refl|apply le_n|exact L26|exact ST].
  - eapply (made_features_mono d2 d6 (S key)); [intros ? ? ? ?; apply stored_le| |exact S26|exact MF]. apply stored_mono; [apply follows_refl|lia|exact L26].
  - eapply (made_mono O d3 d6 (S key)); [| |exact S36|exact M3].
    + intros a b c e Q. apply stored_le in Q. lia.
    + apply stored_mono; [apply follows_refl|lia|exact L36].
Qed.
(* an empty tag *)
Lemma builds_empty d top st name attrs nodes m more d' :
  (forall top st more d d', full_ok d -> follows d0 d -> pinv d (top :: st) (m ++ more) -> parse_elements_loop fuel O d (top :: st) (m ++ more) = (d', Ok tt) -> builds d top st nodes more d') ->
  full_ok d -> follows d0 d -> pinv d (top :: st) (EvEmpty NsFolia name attrs :: m ++ more) ->
  parse_elements_loop fuel O d (top :: st) (EvEmpty NsFolia name attrs :: m ++ more) = (d', Ok tt) ->
  builds d top st (XElement name attrs [] :: nodes) more d'.
Proof.
  intros IH2 FU LE PI H. pose proof (top_lt _ _ _ _ PI) as TL. pose proof (pi_forest _ _ _ PI) as F. apply step_of in H. destruct H as (d4 & p & SS & H).
  pose proof (elements_step_pinv _ _ _ _ _ _ _ _ PI SS) as PI4.
  assert (PP : prims normal d d4).
  { pose proof (elements_step_prims normal fuel O [EvEmpty NsFolia name attrs] d (top :: st) (EvEmpty NsFolia name attrs) (load_ok_normal O _) (or_introl eq_refl)) as Q. rewrite SS in Q. exact Q. }
  cbn [elements_step] in SS. apply sbind_ok in SS. destruct SS as (dz & x & X & SS). injection X as <- X. apply sbind_ok in SS. destruct SS as (d1 & key & ST & SS).
  apply map_err_ok in ST. apply sbind_ok in SS. destruct SS as (d2 & u & A & SS). apply sbind_ok in SS. destruct SS as (d3 & v & B & SS). apply sbind_ok in SS. destruct SS as (d4' & w & C & SS). injection SS as -> <-. destruct u, v.
  destruct (parse_elem_reads _ _ _ X) as (t & own & fs & ET & RA & EX & EF & TX & IDS). rewrite EX in ST. rewrite EF in B. cbn [hd_error] in ST.
  assert (NI : new_id d (mkElem t own [] None None)) by (eapply new_id_tag; [exact PI|exists NsFolia, name; right; reflexivity|exact IDS]).
  destruct (store_attach d0 d (mkElem t own [] None None) top d1 key d2 FU LE F NI TX eq_refl eq_refl (fun _ i => False_ind _ i)) as (EK & G2 & E2 & ST2);
    [apply (pi_open _ _ _ PI); left; reflexivity|exact ST|exact A|].
  assert (FU2 : full_ok d2) by (eapply full_prims; [apply G2|exact FU]).
  assert (LE2 : follows d0 d2) by (eapply follows_trans; [exact LE|eapply grows_at_le, G2]).
  cbn [e_type e_data e_attribs] in E2, ST2. apply element_sh in E2.
  assert (F2 : forest d2). { eapply forest_attach; [|intros Q|exact A].
    - destruct (forest_store d (mkElem t own [] None None) (Some top) d1 key F NI eq_refl (fun _ i => i) eq_refl ST) as (_ & _ & F1 & _). exact F1.
    - destruct (forest_store d (mkElem t own [] None None) (Some top) d1 key F NI eq_refl (fun _ i => i) eq_refl ST) as (_ & _ & _ & S1 & _).
      eapply (old_not_above d d1 key F); [|lia|exact Q|exact TL]. intros j J. rewrite S1. destruct (Nat.eqb_spec j key); [lia|reflexivity]. }
  destruct (features_added d0 key fs d2 d3 FU2 LE2 F2) as (fl & G3 & M3 & F3 & I3); [rewrite E2; discriminate|exact B|].
  pose proof (post_add_sh fuel d3 key (Some (rev (top :: st)))) as PA. rewrite C in PA. cbn [fst] in PA. destruct PA as (SA & LA & IA).
  assert (K4 : sh d4 key = Some (mkSh t (Some top) fl)) by (rewrite SA, (ga_top _ _ _ _ _ G3 _ E2); reflexivity).
  pose proof (ga_len _ _ _ _ _ G2) as GL2. pose proof (ga_len _ _ _ _ _ G3) as GL3.
  assert (P34 : follows d3 d4) by (eapply follows_post, C).
  assert (FO : follows d d4) by (eapply follows_trans; [apply G2|eapply follows_trans; [apply G3|exact P34]]).
  assert (G4 : grows_at d d4 top [DElement key] (S (length fs))).
  { split; [exact PP|exact FO|lia| |].
    - intros j J N. rewrite SA, (ga_old _ _ _ _ _ G3) by lia. apply (ga_old _ _ _ _ _ G2); assumption.
    - intros s E. rewrite SA, (ga_old _ _ _ _ _ G3) by lia. apply (ga_top _ _ _ _ _ G2), E. }
  eapply (builds_next d d4); [exact TL|exact G4| |apply IH2; [eapply full_prims; eassumption| |exact PI4|exact H]].
  2:{ eapply follows_trans; [exact LE|exact FO]. }
  intros d6 rl n LE6 S6 MR. cbn [app].
  assert (L36 : follows d3 d6) by (eapply follows_trans; eassumption).
  assert (Q : S (length fs) + n = S (length fs + 0 + n)) by lia. rewrite Q.
  apply (made_element O d6 (stored d0 (sh_len d) d6) top name attrs [] nodes t own fs key fl [] rl (length fs) 0 n); auto.
  - apply element_sh. rewrite app_nil_r, S6; [exact K4|lia|rewrite K4; discriminate].
  - eapply stored_mono; [apply follows_refl|apply le_n|eapply follows_trans; [eapply grows_at_le, G3|exact L36]|exact ST2].
  - eapply (made_features_mono d3 d6 (sh_len d2)); [intros ? ? ? ?; apply stored_le| | |exact M3].
    + apply stored_mono; [apply follows_refl|lia|exact L36].
    + intros j J Y. rewrite S6; [apply SA|lia|]. rewrite SA. exact Y.
  - constructor.
Qed.
(* tags of other namespaces and anything else are skipped *)
Lemma skip_step d top st ev l d' : elements_step fuel O d (top :: st) ev = (d, Ok (PContinue (top :: st))) -> pinv d (top :: st) (ev :: l) ->
  parse_elements_loop fuel O d (top :: st) (ev :: l) = (d', Ok tt) -> pinv d (top :: st) l /\ parse_elements_loop fuel O d (top :: st) l = (d', Ok tt).
Proof.
  intros S PI H. apply step_of in H. destruct H as (d1 & p & S1 & H). rewrite S in S1. injection S1 as <- <-. split; [|exact H]. eapply pinv_skip, PI.
Qed.
Theorem content_built nodes ev : xml_events nodes ev -> forall top st more d d', full_ok d -> follows d0 d -> pinv d (top :: st) (ev ++ more) ->
  parse_elements_loop fuel O d (top :: st) (ev ++ more) = (d', Ok tt) -> builds d top st nodes more d'.
Proof.
  intros E. induction E as [|name attrs inside l rest m E1 IH1 E2 IH2|name attrs rest m E IH|ns name attrs inside l rest m NS E1 IH1 E2 IH2|ns name attrs rest m NS E IH|s rest m E IH|s rest m E IH|s rest m E IH|rest m E IH];
    intros top st more d d' FU LE PI H.
  - exists d, [], 0. split; [exact H|]. split; [exact PI|]. split; [apply grows_at_nil|constructor].
  - cbn [app] in PI, H. rewrite <- app_assoc in PI, H. cbn [app] in PI, H. eapply builds_element; eassumption.
  - eapply builds_empty; eassumption.
  - cbn [app] in PI, H. rewrite <- app_assoc in PI, H. cbn [app] in PI, H. apply skip_step in H; [|destruct ns; [contradiction|reflexivity|reflexivity]|exact PI]. destruct H as (PI1 & H).
    destruct (IH1 top st _ d d' FU LE PI1 H) as (d1 & il & inn & H1 & PI2 & G1 & M1). apply skip_step in H1; [|destruct ns; [contradiction|reflexivity|reflexivity]|exact PI2]. destruct H1 as (PI3 & H3).
    eapply (builds_next d d1); [eapply top_lt, PI|exact G1| |apply IH2; [eapply full_prims; [apply G1|exact FU]|eapply follows_trans; [exact LE|eapply grows_at_le, G1]|exact PI3|exact H3]].
    intros d2 k n LE2 S2 MR. constructor; [|exact MR]. eapply (made_mono O d1 d2 (sh_len d)); [intros ? ? ? ?; apply stored_le| |exact S2|exact M1]. apply stored_mono; [apply follows_refl|apply le_n|exact LE2].
  - cbn [app] in PI, H. apply skip_step in H; [|destruct ns; [contradiction|reflexivity|reflexivity]|exact PI]. destruct H as (PI1 & H).
    eapply (builds_next d d _ _ _ [] 0); [eapply top_lt, PI|apply grows_at_nil| |apply IH; assumption]. intros d2 k n _ _ MR. apply (made_foreign O d2 _ top name attrs [] rest [] k 0 n); [constructor|exact MR].
  - eapply (builds_data d top st rest (EvText (Some s)) s DText); try reflexivity; try eassumption; try discriminate; try (intros; constructor; assumption). intros. eapply IH; eassumption.
  - eapply (builds_data d top st rest (EvCData (Some s)) s DText); try reflexivity; try eassumption; try discriminate; try (intros; constructor; assumption). intros. eapply IH; eassumption.
  - eapply (builds_data d top st rest (EvComment (Some s)) s DComment); try reflexivity; try eassumption; try discriminate; try (intros; constructor; assumption). intros. eapply IH; eassumption.
  - cbn [app] in PI, H. apply skip_step in H; [|reflexivity|exact PI]. destruct H as (PI1 & H).
    eapply (builds_next d d _ _ _ [] 0); [eapply top_lt, PI|apply grows_at_nil| |apply IH; assumption]. intros d2 k n _ _ MR. constructor. exact MR.
Qed.
End Content.
