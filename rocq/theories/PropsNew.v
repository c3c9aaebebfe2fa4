(* C79: a new document is what its properties say. *)
From Coq Require Import String Ascii List Bool Arith NArith Lia.
From Verif Require Import Base BaseFacts Types TypesFacts SpecTable Attrib AttribFacts Element Store StoreFacts Metadata Document Select DocOps Xml Parser Serialiser History Spec
  FrameFacts InvFacts DocFacts Examples StoreThms InternFacts EncodeFacts PropsEncode LinkFacts TreeFacts ForestFacts SelSpec SelectFacts PropsLinks PropsQuery SerSpec PropsSer ParseSpec ParseFacts PropsParse PropsProv
  NoPanic Returns RoundFacts RoundProv RoundSpec RoundTree PropsRound PropsTree WellSpec LoadOk PropsWell SaveSpec SaveOk ClassFacts.
Import ListNotations.
Open Scope string_scope.
Open Scope list_scope.

(* ---------------------------------------------------------------- what apply_declares makes *)
Definition given_list (o : option nat) : list nat := match o with Some k => [k] | None => [] end.
Definition current_only : sstore := mkStore [Some "current"] (smap_insert "current" 0 []).
Definition wants (s : option string) : option sstore := match s with Some s => if String.eqb s DEFAULT_TEXT_SET then Some current_only else None | None => None end.
Definition made_decl (A : option nat) (done : list (AnnotationType * option string)) (k : nat) (x : declaration) (c : option sstore) : Prop :=
  In (d_type x, d_set x) done /\ x = mkDecl (Some k) (d_type x) (d_set x) None None (given_list A) c None None.
Definition asked (A : option nat) (done : list (AnnotationType * option string)) (d : document) : Prop := forall k x, get_declaration d k = Some x -> made_decl A done k x (wants (d_set x)).
Definition half_asked (A : option nat) (done : list (AnnotationType * option string)) (dk : nat) (s : option string) (d : document) : Prop :=
  forall k x, get_declaration d k = Some x -> made_decl A done k x (wants (d_set x)) \/ k = dk /\ d_set x = s /\ made_decl A done k x None.
Lemma made_more A done k x c y : made_decl A done k x c -> made_decl A (y :: done) k x c.
Proof. intros (I & E). split; [right; exact I|exact E]. Qed.
Lemma active_same A done d k j x c : doc_active d = A -> get_declaration (with_active d k) j = Some x -> (forall y, get_declaration d j = Some y -> made_decl A done j y c) -> get_declaration d j = Some x.
Proof.
  intros AC G M. unfold with_active in G. rewrite AC in G. destruct A as [pk|]; [|exact G]. rewrite get_assoc_decl in G. destruct (Nat.eqb_spec j k) as [->|N]; [|exact G].
  destruct (get_declaration d k) as [y|] eqn:GY; [|discriminate]. cbn [option_map] in G. injection G as <-. destruct (M y eq_refl) as (_ & E). f_equal. rewrite E. unfold d_with_processors. cbn [d_key d_type d_set d_alias d_format d_processors d_classes d_subsets d_subclasses given_list].
  unfold push_if_absent, mem_nat. cbn [existsb]. rewrite Nat.eqb_refl. reflexivity.
Qed.
Lemma declare_asked A done d t s d1 dk : doc_ok d -> doc_active d = A -> asked A done d -> declare d t s None None = (d1, Ok dk) -> half_asked A ((t, s) :: done) dk s d1.
Proof.
  intros W AC AS H. pose proof (declare_cases d t s None None W) as C. rewrite H in C. cbn [fst snd] in C. inversion C as [k dec X GD T S|k dec S X OD GD T|d2 X DD AD GD X2|]; subst d1; intros j x G.
  - left. apply made_more, AS, G.
  - left. destruct (get_with_active _ _ _ _ G) as (y & GY & _). pose proof (AS _ _ GY) as M. apply made_more, AS. eapply (active_same A done d _ j x (wants (d_set y))); [exact AC|exact G|]. intros z Z. rewrite GY in Z. injection Z as <-. exact M.
  - assert (AC2 : doc_active d2 = A). { rewrite <- AC. pose proof (add_declaration_fst d (d_new t s None None)) as Q. rewrite AD in Q. cbn [fst] in Q. rewrite Q. reflexivity. }
    assert (OLD : forall y, get_declaration d2 j = Some y -> j <> st_len (doc_decls d) -> get_declaration d j = Some y).
    { intros y Y N. pose proof (add_declaration_fst d (d_new t s None None)) as Q. rewrite AD in Q. cbn [fst] in Q. rewrite Q in Y. unfold get_declaration in *. cbn [doc_with_decls doc_decls] in Y.
      destruct (add_case_of max_dec d_maybe_id d_assign_key (doc_decls d) (d_new t s None None) _ eq_refl) as [k' K|s' K B GE IX LE|K B]; [exact Y| |exact Y]. rewrite GE in Y. apply Nat.eqb_neq in N. rewrite N in Y. exact Y. }
    destruct (Nat.eq_dec j (st_len (doc_decls d))) as [->|N].
    + right. split; [congruence|]. unfold with_active in G. rewrite AC2 in G. assert (EX : x = mkDecl (Some (st_len (doc_decls d))) t s None None (given_list A) None None None).
      { destruct A as [pk|]; [|rewrite GD in G; injection G as <-; reflexivity]. rewrite get_assoc_decl, Nat.eqb_refl, GD in G. injection G as <-. reflexivity. }
      subst x. cbn [d_set]. split; [reflexivity|]. split; [left; reflexivity|reflexivity].
    + left. destruct (get_with_active _ _ _ _ G) as (y & GY & _). pose proof (AS _ _ (OLD _ GY N)) as M. assert (GX : get_declaration d2 j = Some x).
      { eapply (active_same A done d2 _ j x (wants (d_set y))); [exact AC2|exact G|]. intros z Z. assert (z = y) by congruence. subst z. exact M. }
      apply made_more, AS, OLD; assumption.
Qed.
Lemma class_asked A done d dk s : half_asked A done dk (Some s) d -> s = DEFAULT_TEXT_SET -> (forall x, get_declaration d dk = Some x -> d_set x = Some s) -> asked A done (fst (doc_add_class d dk "current")).
Proof.
  intros H S SD. unfold doc_add_class. destruct (get_declaration d dk) as [x|] eqn:GX.
  - specialize (SD x eq_refl). assert (R : d_add_class x "current" = (mkDecl (Some dk) (d_type x) (d_set x) None None (given_list A) (Some current_only) None None, Ok 0)).
    { assert (W : wants (d_set x) = Some current_only) by (rewrite SD, S; reflexivity). destruct (H _ _ GX) as [(_ & E)|(_ & _ & _ & E)]; rewrite E; cbn [d_type d_set]; [rewrite W|]; reflexivity. }
    rewrite R. cbn [fst]. intros k y G. unfold get_declaration in *. cbn [doc_with_decls doc_decls] in G. destruct (Nat.eq_dec k dk) as [->|N].
    + rewrite (st_get_set_same _ _ _ _ GX) in G. injection G as <-. cbn [d_set]. rewrite SD, S. destruct (H _ _ GX) as [(I & _)|(_ & _ & I & _)]; (split; [cbn [d_type d_set]; rewrite SD in I; rewrite S in I; exact I|reflexivity]).
    + rewrite st_get_set_other in G by exact N. destruct (H k y G) as [Q|(Q & _)]; [exact Q|contradiction].
  - cbn [fst]. intros k y G. destruct (H k y G) as [Q|(Q & _)]; [exact Q|congruence].
Qed.
Lemma half_whole A done dk s d : half_asked A done dk s d -> wants s = None -> asked A done d.
Proof. intros H W k x G. destruct (H k x G) as [Q|(_ & E & M)]; [exact Q|]. rewrite E, W. exact M. Qed.

(* only the declarations differ *)
Definition only_decls (d d' : document) : Prop := d' = doc_with_decls d (doc_decls d').
Lemma od_trans a b c : only_decls a b -> only_decls b c -> only_decls a c.
Proof. unfold only_decls. intros -> ->. destruct a, b, c; reflexivity. Qed.
Lemma od_active d k : only_decls d (with_active d k).
Proof. unfold with_active, assoc_processor, upd_declaration. destruct (doc_active d); [destruct (get_declaration d k)|]; destruct d; reflexivity. Qed.
Lemma od_declare d t s : doc_ok d -> only_decls d (fst (declare d t s None None)).
Proof.
  intros W. pose proof (declare_cases d t s None None W) as C. destruct (declare d t s None None) as [d1 r]. cbn [fst snd] in C. inversion C as [k dec X GD T S|k dec S X OD GD T|d2 X DD AD GD X2|]; subst; try (destruct d1; reflexivity); [apply od_active| ].
  eapply od_trans; [|apply od_active]. pose proof (add_declaration_fst d (d_new t s None None)) as Q. rewrite AD in Q. cbn [fst] in Q. rewrite Q. destruct d; reflexivity.
Qed.
Lemma od_class d k c : only_decls d (fst (doc_add_class d k c)).
Proof. unfold doc_add_class. destruct (get_declaration d k); [destruct (d_add_class _ _)|]; destruct d; reflexivity. Qed.

Lemma declares_made l : forall A done d d', full_ok d -> doc_active d = A -> asked A done d -> apply_declares d l = (d', Ok tt) ->
  asked A (rev l ++ done) d' /\ only_decls d d' /\ doc_le d d' /\ forall t s, In (t, s) l -> exists k x, get_declaration d' k = Some x /\ d_type x = t /\ (d_set x = s \/ s = None).
Proof.
  induction l as [|[t s] l IH]; intros A done d d' F AC AS H; cbn [apply_declares] in H.
  - injection H as <-. split; [exact AS|]. split; [destruct d; reflexivity|]. split; [apply doc_le_refl|intros t s []].
  - apply sbind_ok in H. destruct H as (d1 & dk & D & H). apply sbind_ok in H. destruct H as (d2 & u & C & H).
    pose proof (declare_asked A done d t s d1 dk (proj1 F) AC AS D) as HA. pose proof (od_declare d t s (proj1 F)) as O1. rewrite D in O1. cbn [fst] in O1.
    pose proof (declare_p0 normal (go_decl _ normal_ok) d t s None None) as P1. rewrite D in P1. cbn [fst] in P1. assert (F1 : full_ok d1) by (eapply full_prims0; eassumption).
    destruct (declare_result _ _ _ _ _ _ _ (proj1 F) D) as (dec & GD & TD & SD).
    assert (STEP : asked A ((t, s) :: done) d2 /\ only_decls d1 d2 /\ prims0 normal d1 d2).
    { assert (STAY : d2 = d1 -> wants s = None -> asked A ((t, s) :: done) d2 /\ only_decls d1 d2 /\ prims0 normal d1 d2) by (intros -> Q; split; [eapply half_whole; eassumption|]; split; [destruct d1; reflexivity|apply rtc_refl]).
      destruct s as [s|]; [|apply STAY; [congruence|reflexivity]]. cbn [wants] in STAY. destruct (String.eqb_spec s DEFAULT_TEXT_SET) as [E|E]; [|apply STAY; [congruence|reflexivity]].
      apply sbind_ok in C. destruct C as (d3 & ck & C & Q). injection Q as -> _. assert (E2 : d2 = fst (doc_add_class d1 dk "current")) by (rewrite C; reflexivity). rewrite E2. split; [|split; [apply od_class|apply doc_add_class_p0]].
      eapply class_asked; [exact HA|exact E|]. intros x GX. assert (x = dec) by congruence. subst x. destruct SD as [SD|(Q & _)]; [exact SD|discriminate]. }
    destruct STEP as (A2 & O2 & P2). assert (F2 : full_ok d2) by (eapply full_prims0; eassumption). assert (AC2 : doc_active d2 = A) by (rewrite O2, O1; exact AC).
    destruct (IH A _ d2 d' F2 AC2 A2 H) as (AS' & O3 & LE3 & DD). cbn [rev]. rewrite <- app_assoc. split; [exact AS'|]. split; [eapply od_trans; [exact O1|eapply od_trans; [exact O2|exact O3]]|].
    assert (LE1 : doc_le d1 d') by (eapply doc_le_trans; [apply prims_doc_le, lift, P2|exact LE3]). split; [eapply doc_le_trans; [apply prims_doc_le, lift, P1|exact LE1]|].
    intros t' s' [E|I]; [injection E as <- <-|apply DD, I]. destruct LE1 as [_ (KE & _ & _) _]. destruct (KE dk dec GD) as (z & GZ & [_ KT KS _ _ _ _ _ _ _ _ _]). exists dk, z. split; [exact GZ|]. split; [congruence|]. destruct SD as [SD|(SD & _)]; [left; congruence|right; exact SD].
Qed.

(* ================================================================ C79 *)
(* Making a document succeeds. It has the ID given and one element, the body, and nothing in it; the declarations asked for,
   and no others, with the processor given (which is then the active one) and, for the default text set, the class
   current; and the processor given with its subprocessors is all of the provenance. *)
Theorem C79_new_document : forall id p,
  (forall pr, dp_processor p = Some pr -> brand_new pr /\ NoDup (proc_ids pr) /\ (N.of_nat (proc_size pr) <= max_proc + 1)%N) -> (N.of_nat (length (dp_declare p)) <= max_dec + 1)%N ->
  exists d, doc_new id p = (d, Ok tt) /\ doc_id d = id /\ doc_autodeclare d = dp_autodeclare p /\
    (length (st_items (doc_elements d)) = 1 /\ get_elementdata d 0 = Some (mkElem (match dp_bodytype p with BT_Text => ET_Text | BT_Speech => ET_Speech end) [] [] (Some 0) None)) /\
    (forall t s, In (t, s) (dp_declare p) -> exists k x, get_declaration d k = Some x /\ d_type x = t /\ (d_set x = s \/ s = None)) /\
    (forall k x, get_declaration d k = Some x -> In (d_type x, d_set x) (dp_declare p) /\ d_alias x = None /\ d_format x = None /\ d_processors x = given_list (doc_active d) /\
       forall c, (exists ck, doc_class_key d k c = Ok ck) <-> c = "current" /\ d_set x = Some DEFAULT_TEXT_SET) /\
    match dp_processor p with
    | Some pr => exists pk, doc_active d = Some pk /\ doc_chain d = [pk] /\ made_from d None pk pr /\ length (st_items (doc_procs d)) = proc_size pr
    | None => doc_active d = None /\ doc_chain d = [] /\ doc_procs d = st_empty
    end.
Proof.
  intros id p PR LD. set (body := match dp_bodytype p with BT_Text => ET_Text | BT_Speech => ET_Speech end).
  set (d0 := doc_empty id (dp_autodeclare p)). set (d1 := doc_with_elements d0 (mkStore [Some (mkElem body [] [] (Some 0) None)] [])).
  assert (ST : store_add d0 (e_new body) None = (d1, Ok 0)) by (unfold body; destruct (dp_bodytype p); reflexivity).
  assert (NW : doc_new id p = apply_properties d1 p).
  { unfold doc_new. fold d0. fold body. cbv zeta. assert (E : encode d0 (e_new body) None = (d0, Ok (e_new body))) by reflexivity. rewrite E. cbn [sbind]. rewrite ST. reflexivity. }
  assert (F0 : full_ok d0) by apply full_empty.
  assert (F1 : full_ok d1) by (pose proof (store_add_prims normal d0 (e_new body) None) as Q; rewrite ST in Q; eapply full_prims; [apply Q; intros a []|exact F0]).
  (* the processor *)
  assert (P2 : exists d2, (match dp_processor p with Some pr => let! d1, pk := add_processor d1 pr in (doc_with_active d1 (Some pk), Ok tt) | None => (d1, Ok tt) end) = (d2, Ok tt) /\
     d2 = mkDoc (doc_id d2) (doc_version d2) (doc_filename d2) (doc_elements d1) (doc_procs d2) (doc_chain d2) st_empty (doc_metadata d2) (doc_submetadata d2) (doc_active d2) (doc_autodeclare d2) /\ (doc_id d2 = id /\ doc_autodeclare d2 = dp_autodeclare p) /\ full_ok d2 /\
     match dp_processor p with
     | Some pr => exists pk, doc_active d2 = Some pk /\ doc_chain d2 = [pk] /\ made_from d2 None pk pr /\ length (st_items (doc_procs d2)) = proc_size pr
     | None => doc_active d2 = None /\ doc_chain d2 = [] /\ doc_procs d2 = st_empty end).
  { destruct (dp_processor p) as [pr|] eqn:EP; [|exists d1; split; [reflexivity|]; split; [reflexivity|]; split; [split; reflexivity|]; split; [exact F1|repeat split; reflexivity]]. destruct (PR pr eq_refl) as (BN & ND & SZ).
    destruct (C59_add_processor_partial d1 pr BN ND) as (OK & RES); [reflexivity|]. destruct OK as (d2 & pk & AP); [exact SZ|]. destruct (RES _ _ AP) as (CH & MF & _ & _ & _ & LN & E). rewrite AP. cbn [sbind]. exists (doc_with_active d2 (Some pk)). split; [reflexivity|].
    assert (FP : prims normal d1 (doc_with_active d2 (Some pk))).
    { pose proof (add_processor_p0 normal d1 pr) as Q. rewrite AP in Q. eapply rtc_trans; [apply lift, Q; exact BN|]. apply lift, rtc_one, P_active. intros _. inversion MF; subst. eauto. }
    split; [rewrite E; reflexivity|]. split; [rewrite E; split; reflexivity|]. split; [eapply full_prims; [exact FP|exact F1]|]. exists pk. split; [reflexivity|]. split; [exact CH|]. split; [eapply made_from_kept; [| |exact MF]; auto|exact LN]. }
  destruct P2 as (d2 & E2 & D2 & ID2 & F2 & PP).
  assert (ND2 : forall k x, get_declaration d2 k <> Some x) by (intros k x G; rewrite D2 in G; destruct k; discriminate).
  destruct (declares_ok (dp_declare p) (dp_declare p) 0 d2 F2) as (d3 & E3 & _).
  { exists (dp_declare p). split; [auto|]. rewrite D2. exact LD. }
  { apply incl_refl. }
  { intros k x G. contradiction (ND2 k x G). }
  { change (max_dec + 1)%N with 65536%N in LD. change u32_max with 4294967295%N. lia. }
  destruct (declares_made (dp_declare p) (doc_active d2) [] d2 d3 F2 eq_refl) as (AS & OD & _ & DD); [intros k x G; contradiction (ND2 k x G)|exact E3|].
  assert (AC3 : doc_active d3 = doc_active d2) by (rewrite OD; reflexivity).
  exists d3. split; [rewrite NW; unfold apply_properties; rewrite E2; exact E3|]. split; [rewrite OD; apply ID2|]. split; [rewrite OD; apply ID2|].
  split; [assert (EL : doc_elements d3 = doc_elements d1) by (rewrite OD, D2; reflexivity); unfold get_elementdata; rewrite EL; split; reflexivity|]. split; [exact DD|]. split.
  - intros k x G. destruct (AS k x G) as (I & E). rewrite app_nil_r in I. apply in_rev in I. split; [exact I|]. rewrite AC3. rewrite E. cbn [d_alias d_format d_processors d_set]. split; [reflexivity|]. split; [reflexivity|]. split; [reflexivity|].
    intros c. unfold doc_class_key. rewrite G, E. unfold d_class_key. cbn [d_classes d_set]. destruct (d_set x) as [s|]; cbn [wants].
    + destruct (String.eqb_spec s DEFAULT_TEXT_SET) as [->|N].
      * split; [|intros (-> & _); exists 0; reflexivity]. intros (ck & K). split; [|reflexivity]. unfold sopt_key, ss_get_key, current_only in K. cbn [st_index smap_insert smap_get] in K. destruct (String.eqb_spec c "current") as [->|]; [reflexivity|discriminate].
      * split; [intros (ck & K); discriminate|intros (_ & K); congruence].
    + split; [intros (ck & K); discriminate|intros (_ & K); discriminate].
  - destruct (dp_processor p) as [pr|]; [|rewrite OD; exact PP]. destruct PP as (pk & A1 & A2 & A3 & A4). exists pk. rewrite AC3. split; [exact A1|]. assert (PE : doc_procs d3 = doc_procs d2 /\ doc_chain d3 = doc_chain d2) by (rewrite OD; auto). destruct PE as (PE & CE).
    split; [congruence|]. split; [|congruence]. eapply made_from_kept; [| |exact A3]; unfold get_processor, get_processor_key_by_id; rewrite PE; auto.
Qed.
Print Assumptions C79_new_document.
(* the default properties, and others: a speech body, a pipeline of four processors, a set of one's own for tokens (which is
   then also the one meant where no set is given), the default text set, and a type without a set *)
Definition new_props : docprops := mkDP BT_Speech false [(AT_TOKEN, Some "https://example.org/tokens"); (AT_TEXT, Some DEFAULT_TEXT_SET); (AT_TOKEN, None); (AT_POS, None)] (Some ex_pipeline).
Example C79_nonvacuous : forall p, p = dp_default \/ p = new_props ->
  (forall pr, dp_processor p = Some pr -> brand_new pr /\ NoDup (proc_ids pr) /\ (N.of_nat (proc_size pr) <= max_proc + 1)%N) /\ (N.of_nat (length (dp_declare p)) <= max_dec + 1)%N.
Proof.
  intros p [->| ->]; (split; [|vm_compute; discriminate]); intros pr E; [discriminate|]. injection E as <-.
  split; [apply proc_fresh_allb_spec; reflexivity|]. split; [repeat constructor; cbn; intuition discriminate|vm_compute; discriminate].
Qed.
Example C79_declared : map (fun o => option_map (fun x => (d_type x, d_set x)) o) (st_items (doc_decls (fst (doc_new "doc" new_props)))) =
  [Some (AT_TOKEN, Some "https://example.org/tokens"); Some (AT_TEXT, Some DEFAULT_TEXT_SET); Some (AT_POS, None)].
Proof. vm_compute. reflexivity. Qed.
