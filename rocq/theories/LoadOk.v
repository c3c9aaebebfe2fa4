(* When the parser does not report an error. *)
From Coq Require Import String List Bool Arith NArith Lia.
From Verif Require Import Base BaseFacts Types TypesFacts SpecTable Attrib AttribFacts Element Store StoreFacts Metadata Document Select DocOps Xml Parser History Spec FrameFacts InvFacts DocFacts StoreThms InternFacts EncodeFacts PropsEncode LinkFacts TreeFacts ForestFacts PropsLinks NoPanic Returns PropsPanic Examples ParseSpec ParseFacts PropsParse PropsLoad WellSpec.
Import ListNotations.
Open Scope string_scope.
Open Scope list_scope.

(* ---------------------------------------------------------------- room for declarations *)
Definition declared (d : document) (a : AnnotationType) (s : option string) : Prop := get_declaration_key_by_id d (index_id a s) <> None.
Definition affordable (sets : list (AnnotationType * option string)) (d : document) : Prop :=
  exists todo, (forall a s, In (a, s) sets -> declared d a s \/ In (a, s) todo) /\ (N.of_nat (st_len (doc_decls d) + length todo) <= max_dec + 1)%N.
Definition decls_like (a b : document) : Prop := st_index (doc_decls b) = st_index (doc_decls a) /\ st_len (doc_decls b) = st_len (doc_decls a).
Lemma like_refl d : decls_like d d.
Proof. split; reflexivity. Qed.
Lemma like_trans a b c : decls_like a b -> decls_like b c -> decls_like a c.
Proof. intros (A & B) (C & D). split; congruence. Qed.
Lemma like_same a b : doc_decls b = doc_decls a -> decls_like a b.
Proof. intros E. split; rewrite E; reflexivity. Qed.
Lemma affordable_like sets a b : decls_like a b -> affordable sets a -> affordable sets b.
Proof.
  intros (I & L) (todo & H & N). exists todo. rewrite L. split; [|exact N]. intros t s J. unfold declared, get_declaration_key_by_id, st_id_to_key in *. rewrite I. apply H, J.
Qed.
Lemma like_assoc d dk pk : decls_like d (assoc_processor d dk pk).
Proof. destruct (assoc_parts d dk pk) as (_ & _ & _ & I & L). split; assumption. Qed.
Lemma like_intern d dk f r : decls_like d (fst (intern_opt d dk f r)).
Proof.
  unfold intern_opt. destruct r as [[c|]| | |]; try apply like_refl. destruct (get_declaration d dk) as [x|]; [|apply like_refl].
  destruct (f x c) as [y q]. cbn [fst]. split; [reflexivity|]. docs_g. apply st_set_len.
Qed.
Lemma like_upd d k f : decls_like d (upd_element d k f).
Proof. apply like_same. unfold upd_element. destruct (get_elementdata d k); reflexivity. Qed.
Lemma like_attach d p c : decls_like d (fst (attach_element d p c)).
Proof.
  unfold attach_element. destruct (get_elementdata d p); [|apply like_refl]. destruct (get_elementdata d c) as [ce|]; [|apply like_refl]. cbn [fst].
  eapply like_trans; [apply like_upd|]. eapply like_trans; [apply like_upd|]. destruct (e_parent ce); [apply like_upd|apply like_refl].
Qed.

(* ---------------------------------------------------------------- no error *)
Definition quiet {A} (r : document * res A) : Prop := forall x, snd r <> Err x.
Definition fine {A} (sets : list (AnnotationType * option string)) (r : document * res A) : Prop := quiet r /\ affordable sets (fst r).
Lemma fine_bind {A B} sets (r : document * res A) (f : document -> A -> document * res B) : fine sets r -> (forall d a, r = (d, Ok a) -> affordable sets d -> fine sets (f d a)) -> fine sets (sbind r f).
Proof.
  destruct r as [d [a|x| |]]; cbn; intros (Q & F) H; [apply H; [reflexivity|exact F]|exfalso; apply (Q x); reflexivity|split; [intros x; discriminate|exact F]|split; [intros x; discriminate|exact F]].
Qed.
Lemma fine_pure {A B} sets d (r : res A) (f : document -> A -> document * res B) : affordable sets d -> (forall x, r <> Err x) -> (forall a, r = Ok a -> fine sets (f d a)) -> fine sets (sbind (d, r) f).
Proof. intros F Q H. apply fine_bind; [split; assumption|]. intros d1 a E _. inversion E; subst. apply H. reflexivity. Qed.
Lemma fine_ok {A} sets d (a : A) : affordable sets d -> fine sets (d, Ok a).
Proof. intros F. split; [intros x; discriminate|exact F]. Qed.

Lemma fine_declare sets d t s a f : doc_ok d -> affordable sets d -> In (t, s) sets -> fine sets (declare d t s a f).
Proof.
  intros W (todo & H & N) I. pose proof (declare_cases d t s a f W) as C.
  assert (G : forall k, affordable sets (with_active d k)).
  { intros k. destruct (with_active_index d k) as (IX & _ & L). eapply affordable_like; [split; eassumption|exists todo; auto]. }
  destruct (declare d t s a f) as [d1 r]. cbn [fst snd] in C. inversion C as [k dec X GD T S|k dec S X OD GD T|d2 X DD A GD X2|X F]; subst.
  - apply fine_ok. exists todo. auto.
  - apply fine_ok, G.
  - apply fine_ok. destruct (with_active_index d2 (st_len (doc_decls d))) as (IX & _ & L). eapply affordable_like; [split; eassumption|].
    destruct (H t s I) as [D|J]; [contradiction|]. apply in_split in J. destruct J as (l1 & l2 & ->). exists (l1 ++ l2).
    assert (E : d2 = doc_with_decls d (fst (st_add max_dec d_maybe_id d_assign_key (doc_decls d) (d_new t s a f)))) by (rewrite <- add_declaration_fst, A; reflexivity).
    split.
    + intros t' s' I'. destruct (H t' s' I') as [D|J].
      * left. unfold declared, get_declaration_key_by_id, st_id_to_key in *. subst d2. docs_g. destruct (smap_get (st_index (doc_decls d)) (index_id t' s')) as [j|] eqn:Q; [|congruence].
        rewrite (add_keeps_index max_dec d_maybe_id d_assign_key _ _ _ _ Q). discriminate.
      * rewrite in_app_iff in *. cbn [In] in J. destruct J as [J|[J|J]]; [right; auto| |right; auto]. injection J as <- <-. left. unfold declared. rewrite X2. discriminate.
    + rewrite app_length in *. cbn [length] in N. assert (M : st_len (doc_decls d2) <= S (st_len (doc_decls d))); [|lia].
      subst d2. docs_g. destruct (add_cases max_dec d_maybe_id d_assign_key (doc_decls d) (d_new t s a f)) as [id' j M J|s' K _ E I'|_ F]; [lia| |lia].
      unfold st_len. rewrite E, app_length. cbn. lia.
  - exfalso. destruct (H t s I) as [D|J]; [contradiction|]. destruct todo; [destruct J|]. cbn [length] in N. lia.
Qed.

(* ---------------------------------------------------------------- storing an element *)
Definition wanted (sets : list (AnnotationType * option string)) (d : document) (e : elementdata) (ctx : option nat) : Prop :=
  (forall a, et_annotationtype (e_type e) = Some a -> In (a, first_pick pick_set (e_attribs e)) sets) /\
  (e_type e = ET_Feature -> exists pk pe, ctx = Some pk /\ get_elementdata d pk = Some pe /\
     forall a, et_annotationtype (e_type pe) = Some a -> In (a, first_pick pick_set (e_attribs e)) sets).
Lemma expect_quiet {A} (o : option A) x : expect o <> Err x.
Proof. destruct o; discriminate. Qed.
Lemma fine_encode_refs sets d e ctx : doc_ok d -> textual (e_attribs e) -> affordable sets d -> wanted sets d e ctx -> fine sets (encode_refs d e ctx).
Proof.
  intros W T F (W1 & W2). assert (ES : e_set e = Ok (first_pick pick_set (e_attribs e))) by (apply scan_decoded_textual, T).
  unfold encode_refs. destruct (et_annotationtype (e_type e)) as [t|].
  - rewrite ES. cbn [unwrap sbind]. apply fine_bind; [apply fine_declare; auto|]. intros d1 dk _ F1.
    pose proof (like_intern d1 dk d_add_class (e_class e)) as L. destruct (intern_opt _ _ _ _) as [d2 ck]. cbn [fst] in L. pose proof (affordable_like _ _ _ L F1) as F2.
    destruct (get_declaration d2 dk) as [dec|]; [|apply fine_ok, F2]. destruct (d_default_processor dec); [apply fine_ok, F2|]. destruct (doc_active d2); apply fine_ok, F2.
  - destruct (et_eqb_spec (e_type e) ET_Feature) as [TY|NF]; [|destruct (e_type e); try congruence; apply fine_ok, F].
    destruct (W2 TY) as (pk & pe & -> & G & C). rewrite TY. apply fine_pure; [exact F|rewrite G; discriminate|]. intros pe' EP. rewrite G in EP. injection EP as <-. apply fine_pure; [exact F|apply expect_quiet|]. intros t E.
    rewrite ES. cbn [unwrap sbind]. apply fine_bind; [apply fine_declare; [exact W|exact F|]|].
    { apply C. destruct (et_annotationtype (e_type pe)); [injection E as ->; reflexivity|discriminate]. }
    intros d1 dk _ F1. pose proof (like_intern d1 dk d_add_subclass (e_class e)) as L. destruct (intern_opt d1 _ _ _) as [d2 ck]. cbn [fst] in L. pose proof (affordable_like _ _ _ L F1) as F2.
    pose proof (like_intern d2 dk d_add_subset (e_subset e)) as L2. destruct (intern_opt d2 _ _ _) as [d3 sk]. cbn [fst] in L2. apply fine_ok. eapply affordable_like; eassumption.
Qed.
Lemma fine_encode sets d e ctx : doc_ok d -> textual (e_attribs e) -> affordable sets d -> wanted sets d e ctx -> fine sets (encode d e ctx).
Proof.
  intros W T F C. unfold encode. destruct (negb (e_encodable e)); [apply fine_ok, F|]. apply fine_bind; [apply fine_encode_refs; assumption|]. intros d1 n _ F1. apply fine_ok.
  unfold encode_assoc. destruct (en_test _); [|exact F1]. destruct (en_dec _); [|exact F1]. destruct (en_proc _); [|exact F1]. eapply affordable_like; [apply like_assoc|exact F1].
Qed.
Lemma fine_store sets d e ctx : full_ok d -> textual (e_attribs e) -> affordable sets d -> wanted sets d e ctx -> (N.of_nat (sh_len d) <= max_element)%N -> fine sets (store_add d e ctx).
Proof.
  intros (W & _) T F C N. unfold store_add. apply fine_bind; [destruct (e_encodable e); [apply fine_encode; assumption|apply fine_ok, F]|]. intros d1 e1 E F1.
  assert (EL : doc_elements d1 = doc_elements d). { pose proof (encode_elements d e ctx) as Q. destruct (e_encodable e); [rewrite E in Q; exact Q|injection E as <- _; reflexivity]. }
  unfold st_add. destruct (st_get_key _ _ _); [|].
  - split; [intros x; discriminate|]. eapply affordable_like; [|exact F1]. apply like_same. reflexivity.
  - rewrite EL. unfold sh_len in N. apply N.leb_le in N. unfold st_len in N. rewrite N. split; [intros x; discriminate|]. eapply affordable_like; [|exact F1]. apply like_same. reflexivity.
Qed.

(* ---------------------------------------------------------------- the attributes of a tag *)
Lemma feature_subset_complete key l : (exists f, In (AcceptElementType f) l /\ In f (group_elementtypes EG_Feature) /\ p_subset (props f) = Some key) -> feature_subset key l = Some key.
Proof.
  induction l as [|[t|g] l IH]; intros (f & I & J & E); [destruct I| |]; cbn [feature_subset].
  - destruct I as [I|I].
    + injection I as ->. assert (G : group_contains EG_Feature f = true). { unfold group_contains. apply existsb_exists. exists f. split; [exact J|]. destruct (et_eqb_spec f f); congruence. }
      rewrite G, E, String.eqb_refl. reflexivity.
    + assert (K : feature_subset key l = Some key) by (apply IH; exists f; auto). destruct (group_contains EG_Feature t); [|exact K]. destruct (p_subset (props t)) as [x|]; [|exact K].
      destruct (String.eqb_spec key x) as [->|]; [reflexivity|exact K].
  - destruct I as [I|I]; [discriminate|]. apply IH. exists f. auto.
Qed.
Lemma reads_parse O t attrs own fs : reads_attributes O t attrs own fs -> parse_attributes O t attrs = Ok (own, map (fun p => feature_child (fst p) (snd p)) fs).
Proof.
  intros R. induction R as [|x a rest own fs P R IH|x v err rest own fs P V SC R IH]; cbn [parse_attributes]; [reflexivity| |].
  - rewrite P, IH. reflexivity.
  - rewrite P, V, (feature_subset_complete _ _ SC), IH. reflexivity.
Qed.
Lemma reads_elem O name t attrs own fs : et_from_str name = Some t -> reads_attributes O t attrs own fs ->
  parse_err (parse_elem O name attrs) = Ok (mkElem t own [] None None, map (fun p => feature_child (fst p) (snd p)) fs).
Proof. intros E R. unfold parse_elem. rewrite E. cbn [ok_or rbind]. rewrite (reads_parse _ _ _ _ _ R). reflexivity. Qed.
Lemma reads_readable O t attrs own fs : reads_attributes O t attrs own fs -> readable attrs.
Proof.
  intros R. induction R as [|x a rest own fs P R IH|x v err rest own fs P V SC R IH]; intros y I; [destruct I| |].
  - destruct I as [<-|I]; [|apply IH, I]. destruct x as [k [v|]]; [eauto|]. cbn in P. discriminate.
  - destruct I as [<-|I]; [|apply IH, I]. destruct x as [k w]. cbn in V. subst w. eauto.
Qed.
Lemma reads_same O t attrs own fs : reads_attributes O t attrs own fs -> forall own' fs', reads_attributes O t attrs own' fs' -> own' = own /\ map (fun p => feature_child (fst p) (snd p)) fs' = map (fun p => feature_child (fst p) (snd p)) fs.
Proof. intros R own' fs' R'. apply reads_parse in R, R'. rewrite R in R'. injection R' as -> ->. auto. Qed.
Lemma reads_count O t attrs own fs own' fs' : reads_attributes O t attrs own fs -> reads_attributes O t attrs own' fs' -> length fs' = length fs.
Proof. intros R R'. destruct (reads_same _ _ _ _ _ R _ _ R') as (_ & E). rewrite <- (map_length (fun p => feature_child (fst p) (snd p)) fs'), E, map_length. reflexivity. Qed.
Lemma first_set own : gives_set own (first_pick pick_set own).
Proof.
  destruct (first_pick pick_set own) as [x|] eqn:E; cbn.
  - apply first_pick_some in E. destruct E as (a & I & E). destruct a; try discriminate. injection E as ->. exact I.
  - intros x I. revert E. induction own as [|a l IH]; [destruct I|]. cbn. destruct I as [->|I]; [discriminate|]. destruct (pick_set a); [discriminate|apply IH, I].
Qed.
Lemma gives_id_first own id : gives_id own id -> attribs_id own = Some id.
Proof.
  intros (I & U). induction own as [|a l IH]; [destruct I|]. destruct a; cbn [attribs_id]; try (apply IH; [destruct I as [I|I]; [discriminate|exact I]|intros x X; apply U; right; exact X]).
  f_equal. apply U. left. reflexivity.
Qed.
Lemma last_idref_in l : forall acc id, attribs_last_idref l acc = Some id -> acc = Some id \/ In (A_Idref id) l.
Proof.
  induction l as [|a l IH]; intros acc id H; cbn in H; [auto|]. destruct a; apply IH in H; destruct H as [H|H]; try (right; right; exact H); try (left; exact H).
  injection H as ->. right. left. reflexivity.
Qed.
Lemma last_idref_some l : forall acc, (acc <> None \/ exists id, In (A_Idref id) l) -> attribs_last_idref l acc <> None.
Proof.
  induction l as [|a l IH]; intros acc H; cbn; [destruct H as [H|(id & [])]; exact H|].
  destruct a; try (apply IH; destruct H as [H|(id & [H|H])]; [left; exact H|discriminate H|right; exists id; exact H]). apply IH. left. discriminate.
Qed.

(* ---------------------------------------------------------------- the steps *)
Lemma attach_ok d p c : sh d p <> None -> sh d c <> None -> exists d1, attach_element d p c = (d1, Ok tt).
Proof.
  unfold sh, attach_element. intros P C. destruct (get_elementdata d p); [|contradiction P; reflexivity]. destruct (get_elementdata d c); [|contradiction C; reflexivity]. eexists. reflexivity.
Qed.
Lemma fine_attach sets d p c : affordable sets d -> sh d p <> None -> sh d c <> None -> fine sets (attach_element d p c).
Proof.
  intros F P C. pose proof (like_attach d p c) as L. destruct (attach_ok d p c P C) as (d1 & E). rewrite E in *. apply fine_ok. eapply affordable_like; eassumption.
Qed.
Lemma typed_sh d k t : typed d k t -> sh d k <> None.
Proof. intros (e & G & _). unfold sh. rewrite G. discriminate. Qed.
Lemma fine_features sets key t fs : forall d, full_ok d -> forest d -> typed d key t -> affordable sets d -> (fs <> [] -> forall a, et_annotationtype t = Some a -> In (a, None) sets) ->
  (N.of_nat (sh_len d + length fs) <= max_element + 1)%N -> fine sets (add_attr_children d key (map (fun p => feature_child (fst p) (snd p)) fs)).
Proof.
  induction fs as [|[s v] fs IH]; intros d FU F TY AF C N; [apply fine_ok, AF|]. cbn [map fst snd add_attr_children].
  assert (T : textual (e_attribs (feature_child s v))) by (intros a [<-|[<-|[]]]; reflexivity).
  apply fine_bind; [apply fine_store; [exact FU|exact T|exact AF| |cbn [length] in N; lia]|].
  { destruct TY as (pe & G & <-). split; [intros a E; discriminate E|]. intros _. exists key, pe. split; [reflexivity|]. split; [exact G|]. apply C. discriminate. }
  intros d1 ck S AF1. assert (NI : new_id d (feature_child s v)) by (intros id E; discriminate E).
  pose proof (store_add_prims normal d _ (Some key) T) as P1. rewrite S in P1. cbn [fst] in P1.
  assert (ND : forall x, ~ In (DAddElement x) (e_data (feature_child s v))) by (intros x [E|[]]; discriminate E).
  destruct (forest_store d (feature_child s v) (Some key) d1 ck F NI eq_refl ND eq_refl S) as (EK & L1 & F1 & S1 & _).
  apply fine_bind; [apply fine_attach; [exact AF1|eapply typed_sh, typed_prims; eassumption|rewrite S1, Nat.eqb_refl; discriminate]|].
  intros d2 [] A AF2. pose proof (attach_p0 normal d1 key ck) as P2. rewrite A in P2. cbn [fst] in P2. apply lift in P2.
  assert (FU2 : full_ok d2) by (eapply full_prims; [exact P2|eapply full_prims; eassumption]).
  assert (T2 : typed d2 key t) by (eapply typed_prims; [exact P2|eapply typed_prims; eassumption]).
  assert (AF1' : forest d2 /\ grown d d2 /\ st_index (doc_elements d2) = st_index (doc_elements d)).
  { apply (add_attr_children_forest key [feature_child s v]); [intros c [<-|[]]; exists s, v; reflexivity|exact F|eapply typed_sh, TY|]. cbn [add_attr_children]. unfold sbind. rewrite S, A. reflexivity. }
  destruct AF1' as (F2 & _ & _).
  assert (L2 : sh_len d2 = sh_len d1).
  { destruct (attach_parentless d1 key ck d2) as (_ & _ & _ & L2 & _); [|eapply sh_spar; [rewrite S1, Nat.eqb_refl; reflexivity|reflexivity]|exact A|exact L2].
    intros ->. apply typed_sh in TY. apply TY. rewrite EK. apply sh_new. }
  apply IH; [exact FU2|exact F2|exact T2|exact AF2| |rewrite L2, L1; cbn [length] in N; lia]. intros _ a E. apply C; [discriminate|exact E].
Qed.
Lemma matches_span d k e : get_elementdata d k = Some e -> matches span_selector d (DElement k) = Ok (group_contains EG_Span (e_type e)).
Proof. intros G. cbn -[group_contains]. rewrite G. destruct (group_contains EG_Span (e_type e)); reflexivity. Qed.
Lemma first_span d st ts s : Forall2 (typed d) st ts -> In s ts -> In s (group_elementtypes EG_Span) -> exists k, first_match d span_selector st = Ok (Some k).
Proof.
  intros F I J. induction F as [|k t st ts (e & G & T) F IH]; [destruct I|]. cbn [first_match]. rewrite (matches_span _ _ _ G). cbn [rbind].
  destruct (group_contains EG_Span (e_type e)) eqn:E; [eauto|]. destruct I as [<-|I]; [|apply IH, I]. exfalso. subst t. apply not_true_iff_false in E. apply E.
  unfold group_contains. apply existsb_exists. exists (e_type e). split; [exact J|]. destruct (et_eqb_spec (e_type e) (e_type e)); congruence.
Qed.
Lemma sel_find_quiet fuel d p f : (forall k e x, get_elementdata d k = Some e -> f k e <> Err x) -> forall st x, sel_find fuel d p st f <> Err x.
Proof.
  intros H. induction fuel as [|fuel IH]; intros st x; cbn [sel_find]; [discriminate|]. destruct (sel_step d p st) as [i st'|st'|st'|]; try discriminate; [|apply IH].
  destruct (si_data i) as [s|k|s|k|e]; try apply IH; destruct (get_elementdata d k) as [e|] eqn:G; try discriminate; specialize (H k e); destruct (f k e) as [[y|]|y| |]; cbn [rbind]; try discriminate; try apply IH; exfalso; eapply H; eauto.
Qed.
Lemma layer_quiet fuel d e x : full_ok d -> layer_declaration fuel d e <> Err x.
Proof.
  intros F. unfold layer_declaration. change (from_query d layer_query) with (Ok (match from_query d layer_query with Ok s => s | _ => sel_default end)). cbn [rbind].
  destruct (e_key e) as [k|]; cbn [rbind expect]; [|discriminate]. apply sel_find_quiet. intros j y z G. destruct (at_opt_eqb _ _); [|discriminate].
  destruct (full_dec_key d j y F G) as (o & ->). discriminate.
Qed.
Lemma fine_post_add sets fuel d k e st ts : full_ok d -> get_elementdata d k = Some e -> affordable sets d -> Forall2 (typed d) st ts ->
  (e_type e = ET_WordReference -> exists id s, attribs_last_idref (e_attribs e) None = Some id /\ has_id d id /\ In s ts /\ In s (group_elementtypes EG_Span)) ->
  fine sets (post_add fuel d k (Some (rev st))).
Proof.
  intros FU G AF TS WR. unfold post_add. rewrite G.
  assert (L : fine sets (if group_contains EG_Layer (e_type e) && negb (e_has_attrib e AB_SET)
             then let! d0, dk := (d, layer_declaration fuel d e) in
                  match dk with
                  | Some dk0 => (upd_element d0 k (fun x => e_with_attribs x [A_DeclarationRef dk0]), Ok tt)
                  | None => (d0, Ok tt)
                  end
             else (d, Ok tt))).
  { destruct (group_contains EG_Layer (e_type e) && negb (e_has_attrib e AB_SET)); [|apply fine_ok, AF].
    apply fine_pure; [exact AF|intros x; apply layer_quiet, FU|]. intros [dk|] _; apply fine_ok; [|exact AF]. eapply affordable_like; [apply like_upd|exact AF]. }
  destruct (et_eqb_spec (e_type e) ET_WordReference) as [TY|NW]; [|destruct (e_type e); try exact L; congruence].
  clear L. rewrite TY. destruct (WR TY) as (id & s & LI & HI & IS & IG). unfold post_add_wref. rewrite LI. rewrite rev_involutive.
  destruct (first_span d st ts s TS IS IG) as (sk & FM). rewrite FM. cbn [sbind].
  pose proof (key_by_id_np d id FU) as NP. unfold key_by_id in *. unfold has_id in HI. destruct (get_element_key_by_id d id) as [j|]; [|congruence].
  destruct (get_elementdata d j); [|congruence]. apply fine_ok. eapply affordable_like; [apply like_upd|exact AF].
Qed.

(* ---------------------------------------------------------------- the loop *)
Lemma pinv_one d st ev l : pinv d st (ev :: l) -> pinv d st [ev].
Proof.
  intros [F N P I X]. assert (E : xml_ids (ev :: l) = xml_ids [ev] ++ xml_ids l) by (unfold xml_ids; cbn [flat_map]; rewrite app_nil_r; reflexivity). rewrite E in *.
  split; try assumption; [|apply NoDup_app_inv in X; apply X]. intros id H J. apply (I id H), in_app_iff. auto.
Qed.
Lemma step_ok sets O d top st ts ev l : full_ok d -> pinv d (top :: st) (ev :: l) -> tags_readable [ev] -> Forall2 (typed d) (top :: st) ts -> placed ts [ev] ->
  (forall fuel, fine sets (elements_step fuel O d (top :: st) ev)) ->
  exists m d1 p, affordable sets d1 /\ forall fuel, m <= fuel -> elements_step fuel O d (top :: st) ev = (d1, Ok p).
Proof.
  intros FU P R TS PL FI. destruct (elements_step_settles O d (top :: st) ev l FU P R) as (m & d1 & v & V & H).
  pose proof (elements_step_np m O d top st ts ev [] FU (pinv_one _ _ _ _ P) R TS PL) as NP. pose proof (FI m) as (Q & AF). rewrite (H m (Nat.le_refl m)) in *. cbn [fst snd] in *.
  destruct v as [p|x| |]; try congruence; [|exfalso; apply (Q x); reflexivity]. exists m, d1, p. auto.
Qed.
Lemma store_has_id d e ctx d1 k id : new_id d e -> store_add d e ctx = (d1, Ok k) -> e_id e = Some id -> has_id d1 id.
Proof.
  intros N H E. pose proof (store_add_cases d e ctx) as C. rewrite H in C. cbn [fst snd] in C.
  inversion C as [d' e1 id' k' X I J|d' e1 s X N' B IT IX|d' e1 X N' B|d' r X NR Q R1]; subst.
  - rewrite (N _ I) in J. discriminate.
  - unfold has_id, get_element_key_by_id, st_id_to_key. docs_g. rewrite IX, E. rewrite smap_get_insert_same. discriminate.
  - destruct r; discriminate || (exfalso; eapply NR; reflexivity).
Qed.
Lemma has_id_le a b id : doc_le a b -> has_id a id -> has_id b id.
Proof. intros [(_ & I & _) _ _] H. unfold has_id, get_element_key_by_id, st_id_to_key in *. destruct (smap_get _ id) as [k|] eqn:E; [|congruence]. rewrite (I _ _ E). discriminate. Qed.
Lemma stored_attribs d0 n d p t own k : stored d0 n d p t own k -> group_contains EG_Layer t = false ->
  exists e r, get_elementdata d k = Some e /\ e_type e = t /\ e_attribs e = filter (fun a => negb (a_encodable a)) own ++ refs r.
Proof.
  intros (_ & dA & dB & data & FA & _ & NI & ED & T & _ & S & (LE & _)) NL.
  destruct (store_add_spec dA (mkElem t own data None None) (Some p) dB k FA T NI S) as (r & GB & _). cbn [e_type e_attribs e_data e_parent] in GB.
  destruct (doc_le_elem _ _ _ _ LE GB) as (e & G & [K1 K2 K3]). cbn [e_type e_attribs] in K1, K3. exists e, r. split; [exact G|]. split; [exact K1|].
  destruct K3 as [K3|((RL & _) & _)]; [exact K3|]. rewrite K1 in RL. congruence.
Qed.
Lemma refers_last ids own r : (exists id, In (A_Idref id) own) -> (forall id, In (A_Idref id) own -> In id ids) ->
  exists id, attribs_last_idref (filter (fun a => negb (a_encodable a)) own ++ refs r) None = Some id /\ In id ids.
Proof.
  intros (id & I) A. set (l := filter _ own ++ refs r). assert (J : In (A_Idref id) l) by (apply in_app_iff; left; apply filter_In; auto).
  pose proof (last_idref_some l None (or_intror (ex_intro _ id J))) as N. destruct (attribs_last_idref l None) as [x|] eqn:E; [|congruence]. exists x. split; [reflexivity|].
  apply last_idref_in in E. destruct E as [E|E]; [discriminate|]. apply in_app_iff in E. destruct E as [E|E]; [apply filter_In in E; apply A, E|]. apply refs_decodable in E. discriminate.
Qed.
Lemma stored_id d0 n d p t own k id : stored d0 n d p t own k -> gives_id own id -> has_id d id.
Proof.
  intros (_ & dA & dB & data & FA & _ & NI & ED & T & _ & S & (LE & _)) GI. eapply has_id_le; [exact LE|]. eapply store_has_id; [exact NI|exact S|]. apply gives_id_first, GI.
Qed.

Section Loads.
Context (O : oracle) (sets : list (AnnotationType * option string)).
Record loading (d : document) (st : list nat) (ts : list ElementType) (ids : list string) (l : list event) : Prop := {
  ld_full : full_ok d;
  ld_pinv : pinv d st l;
  ld_types : Forall2 (typed d) st ts;
  ld_ids : forall id, In id ids -> has_id d id;
  ld_room : affordable sets d }.
Lemma tag_wanted d top p t own feats data : typed d top p -> covered sets p t own feats -> wanted sets d (mkElem t own data None None) (Some top).
Proof.
  intros (pe & G & TP) (C1 & C2 & _). split; cbn [e_type e_attribs].
  - intros a E. apply C1; [exact E|apply first_set].
  - intros E. exists top, pe. split; [reflexivity|]. split; [exact G|]. intros a A. rewrite TP in A. apply C2; [exact E|exact A|apply first_set].
Qed.
Lemma start_fine fuel d top st p open ids name attrs l t own feats : loading d (top :: st) (p :: open) ids (EvStart NsFolia name attrs :: l) ->
  et_from_str name = Some t -> reads_attributes O t attrs own feats -> covered sets p t own feats -> (N.of_nat (sh_len d + S (length feats)) <= max_element + 1)%N ->
  fine sets (elements_step fuel O d (top :: st) (EvStart NsFolia name attrs)).
Proof.
  intros [FU PI TS ID AF] ET RA CV N. pose proof (reads_elem _ _ _ _ _ _ ET RA) as PE. inversion TS as [|? ? ? ? TP TS0]; subst.
  destruct (parse_elem_reads _ _ _ _ PE) as (t' & own' & fs' & _ & _ & EX & _ & TX & IDS). injection EX as -> ->.
  assert (NI : new_id d (mkElem t' own' [] None None)) by (eapply new_id_tag; [exact PI|exists NsFolia, name; left; reflexivity|exact IDS]).
  cbn [elements_step]. rewrite PE. cbn [sbind fst snd hd_error].
  pose proof (fine_store sets d (mkElem t' own' [] None None) (Some top) FU TX AF (tag_wanted _ _ _ _ _ _ _ TP CV) ltac:(lia)) as FS.
  destruct (store_add d (mkElem t' own' [] None None) (Some top)) as [d1 r] eqn:S. destruct r as [key|x| |]; cbn [map_err]; [|exfalso; apply (proj1 FS x); reflexivity|split; [discriminate|apply FS]|split; [discriminate|apply FS]].
  cbn [sbind]. destruct (forest_store d (mkElem t' own' [] None None) (Some top) d1 key (pi_forest _ _ _ PI) NI eq_refl (fun _ i => i) eq_refl S) as (EK & L1 & F1 & S1 & _).
  pose proof (store_add_prims normal d (mkElem t' own' [] None None) (Some top) TX) as P1. rewrite S in P1. cbn [fst] in P1.
  destruct (store_add_spec d (mkElem t' own' [] None None) (Some top) d1 key FU TX NI S) as (r & G1 & _).
  apply fine_bind; [|intros d2 u _ AF2; apply fine_ok, AF2]. eapply (fine_features sets key t'); [eapply full_prims; eassumption|exact F1|eexists; split; [exact G1|reflexivity]|apply FS|intros NE a E; eapply (proj2 (proj2 CV)); eassumption|rewrite L1; lia].
Qed.
Lemma refers_ready d key st ts ids own t : loading d st ts ids [] -> (t = ET_WordReference -> refers ts ids own) ->
  (t = ET_WordReference -> exists e r, get_elementdata d key = Some e /\ e_type e = t /\ e_attribs e = filter (fun a => negb (a_encodable a)) own ++ refs r) ->
  forall e, get_elementdata d key = Some e -> e_type e = t -> e_type e = ET_WordReference ->
  exists id s, attribs_last_idref (e_attribs e) None = Some id /\ has_id d id /\ In s ts /\ In s (group_elementtypes EG_Span).
Proof.
  intros LD RF AT e G TY W. rewrite TY in W. destruct (RF W) as (A & B & s & S1 & S2). destruct (AT W) as (e' & r & G' & _ & EA). rewrite G in G'. injection G' as <-.
  destruct (refers_last ids own r A B) as (id & LI & II). exists id, s. rewrite EA. split; [exact LI|]. split; [eapply ld_ids; eassumption|auto].
Qed.
Lemma loading_more d st ts ids l : loading d st ts ids l -> loading d st ts ids [].
Proof. intros [FU PI TS ID AF]. split; try assumption. destruct PI as [A B C D E]. split; try assumption; [intros id _ []|constructor]. Qed.
Lemma end_fine fuel d key top st t p open ids name l own : loading d (key :: top :: st) (t :: p :: open) ids (EvEnd NsFolia name :: l) ->
  et_from_str name = Some t -> (t = ET_WordReference -> refers (p :: open) ids own) ->
  (t = ET_WordReference -> exists e r, get_elementdata d key = Some e /\ e_type e = t /\ e_attribs e = filter (fun a => negb (a_encodable a)) own ++ refs r) ->
  fine sets (elements_step fuel O d (key :: top :: st) (EvEnd NsFolia name)).
Proof.
  intros [FU PI TS ID AF] ET RF AT. inversion TS as [|? ? ? ? TK TS0]; subst. pose proof TK as (e & G & TY). inversion TS0 as [|? ? ? ? TP TS1]; subst.
  assert (LD : loading d (top :: st) (p :: open) ids []).
  { split; try assumption. destruct PI as [A B C D E]. split; try assumption; [inversion B; assumption|intros k I; apply C; right; exact I|intros id _ []|constructor]. }
  cbn [elements_step]. pose proof (post_add_p0 normal fuel d key (Some (rev (top :: st)))) as PP.
  apply fine_bind.
  - eapply fine_post_add; [exact FU|exact G|exact AF|exact TS0|]. intros W. eapply refers_ready; eauto.
  - intros d1 u E AF1. rewrite E in PP. cbn [fst] in PP. apply lift in PP. pose proof (typed_prims _ _ _ _ PP TK) as (e1 & G1 & T1). rewrite G1.
    apply fine_pure; [exact AF1|rewrite ET; discriminate|]. intros et EE. rewrite ET in EE. injection EE as <-. rewrite T1.
    destruct (et_eqb_spec (e_type e) (e_type e)) as [_|NE]; [|contradiction NE; reflexivity].
    apply fine_bind; [|intros d2 v _ AF2; apply fine_ok, AF2]. apply fine_attach; [exact AF1|eapply typed_sh, typed_prims; eassumption|unfold sh; rewrite G1; discriminate].
Qed.
(* an empty tag: what it leads to *)
Lemma empty_step fuel d top st name attrs l d4 p : full_ok d -> pinv d (top :: st) (EvEmpty NsFolia name attrs :: l) ->
  elements_step fuel O d (top :: st) (EvEmpty NsFolia name attrs) = (d4, Ok p) ->
  exists t own fs, p = PContinue (top :: st) /\ et_from_str name = Some t /\ reads_attributes O t attrs own fs /\ sh_len d4 = sh_len d + S (length fs) /\ follows d d4 /\ stored d (sh_len d) d4 top t own (sh_len d).
Proof.
  intros FU PI SS. pose proof (pi_forest _ _ _ PI) as F. pose proof (top_lt _ _ _ _ PI) as TL.
  cbn [elements_step] in SS. apply sbind_ok in SS. destruct SS as (dz & x & X & SS). injection X as <- X. apply sbind_ok in SS. destruct SS as (d1 & key & ST & SS).
  apply map_err_ok in ST. apply sbind_ok in SS. destruct SS as (d2 & u & A & SS). apply sbind_ok in SS. destruct SS as (d3 & v & B & SS). apply sbind_ok in SS. destruct SS as (d4' & w & C & SS). injection SS as -> <-. destruct u, v.
  destruct (parse_elem_reads _ _ _ _ X) as (t & own & fs & ET & RA & EX & EF & TX & IDS). rewrite EX in ST. rewrite EF in B. cbn [hd_error] in ST.
  assert (NI : new_id d (mkElem t own [] None None)) by (eapply new_id_tag; [exact PI|exists NsFolia, name; right; reflexivity|exact IDS]).
  destruct (store_attach d d (mkElem t own [] None None) top d1 key d2 FU (follows_refl d) F NI TX eq_refl eq_refl (fun _ i => False_ind _ i)) as (EK & G2 & E2 & ST2);
    [apply (pi_open _ _ _ PI); left; reflexivity|exact ST|exact A|].
  assert (FU2 : full_ok d2) by (eapply full_prims; [apply G2|exact FU]).
  cbn [e_type e_data e_attribs] in E2, ST2. apply element_sh in E2.
  assert (F2 : forest d2). { eapply forest_attach; [|intros Q|exact A].
    - destruct (forest_store d (mkElem t own [] None None) (Some top) d1 key F NI eq_refl (fun _ i => i) eq_refl ST) as (_ & _ & F1 & _). exact F1.
    - destruct (forest_store d (mkElem t own [] None None) (Some top) d1 key F NI eq_refl (fun _ i => i) eq_refl ST) as (_ & _ & _ & S1 & _).
      eapply (old_not_above d d1 key F); [|lia|exact Q|exact TL]. intros j J. rewrite S1. destruct (Nat.eqb_spec j key); [lia|reflexivity]. }
  destruct (features_added d key fs d2 d3 FU2 (grows_at_le _ _ _ _ _ G2) F2) as (fl & G3 & M3 & F3 & I3); [rewrite E2; discriminate|exact B|].
  pose proof (post_add_sh fuel d3 key (Some (rev (top :: st)))) as PA. rewrite C in PA. cbn [fst] in PA. destruct PA as (SA & LA & IA).
  pose proof (ga_len _ _ _ _ _ G2) as GL2. pose proof (ga_len _ _ _ _ _ G3) as GL3.
  exists t, own, fs. split; [reflexivity|]. split; [exact ET|]. split; [exact RA|]. split; [lia|]. split; [eapply follows_trans; [apply G2|eapply follows_trans; [apply G3|eapply follows_post, C]]|]. subst key.
  eapply stored_mono; [apply follows_refl|apply le_n| |exact ST2]. eapply follows_trans; [eapply grows_at_le, G3|eapply follows_post, C].
Qed.
Lemma empty_fine fuel d top st p open ids new name attrs l t own feats : loading d (top :: st) (p :: open) ids (EvEmpty NsFolia name attrs :: l) ->
  et_from_str name = Some t -> reads_attributes O t attrs own feats -> covered sets p t own feats -> (N.of_nat (sh_len d + S (length feats)) <= max_element + 1)%N ->
  (forall id, In id new -> gives_id own id) -> (t = ET_WordReference -> refers (p :: open) (new ++ ids) own) ->
  fine sets (elements_step fuel O d (top :: st) (EvEmpty NsFolia name attrs)).
Proof.
  intros LD ET RA CV N NW RF. pose proof LD as [FU PI TS ID AF]. pose proof (reads_elem _ _ _ _ _ _ ET RA) as PE. inversion TS as [|? ? ? ? TP TS0]; subst.
  destruct (parse_elem_reads _ _ _ _ PE) as (t' & own' & fs' & _ & _ & EX & _ & TX & IDS). injection EX as -> ->.
  set (e0 := mkElem t' own' [] None None) in *. pose proof (pi_forest _ _ _ PI) as F. pose proof (top_lt _ _ _ _ PI) as TL.
  assert (NI : new_id d e0) by (eapply new_id_tag; [exact PI|exists NsFolia, name; right; reflexivity|exact IDS]).
  cbn [elements_step]. rewrite PE. cbn [sbind fst snd hd_error].
  pose proof (fine_store sets d e0 (Some top) FU TX AF (tag_wanted _ _ _ _ _ _ _ TP CV) ltac:(lia)) as FS.
  destruct (store_add d e0 (Some top)) as [d1 r] eqn:S. destruct r as [key|x| |]; cbn [map_err]; [|exfalso; apply (proj1 FS x); reflexivity|split; [discriminate|apply FS]|split; [discriminate|apply FS]].
  cbn [sbind]. destruct (forest_store d e0 (Some top) d1 key F NI eq_refl (fun _ i => i) eq_refl S) as (EK & L1 & F1 & S1 & _).
  pose proof (store_add_prims normal d e0 (Some top) TX) as P1. rewrite S in P1. cbn [fst] in P1.
  destruct (store_add_spec d e0 (Some top) d1 key FU TX NI S) as (r & G1 & _).
  assert (TK1 : typed d1 key t') by (eexists; split; [exact G1|reflexivity]). pose proof (typed_prims _ _ _ _ P1 TP) as TP1.
  apply fine_bind; [apply fine_attach; [apply FS|eapply typed_sh, TP1|eapply typed_sh, TK1]|]. intros d2 [] A AF2.
  pose proof (attach_p0 normal d1 top key) as P2. rewrite A in P2. cbn [fst] in P2. apply lift in P2.
  assert (F2 : forest d2). { eapply forest_attach; [exact F1|intros Q|exact A]. eapply (old_not_above d d1 key F); [|lia|exact Q|exact TL]. intros j J. rewrite S1. destruct (Nat.eqb_spec j key); [lia|reflexivity]. }
  assert (L2 : sh_len d2 = sh_len d1).
  { destruct (attach_parentless d1 top key d2) as (_ & _ & _ & L2 & _); [lia|eapply sh_spar; [rewrite S1, Nat.eqb_refl; reflexivity|reflexivity]|exact A|exact L2]. }
  assert (FU2 : full_ok d2) by (eapply full_prims; [exact P2|eapply full_prims; eassumption]).
  apply fine_bind; [eapply (fine_features sets key t'); [exact FU2|exact F2|eapply typed_prims; eassumption|exact AF2|intros NE a E; eapply (proj2 (proj2 CV)); eassumption|rewrite L2, L1; lia]|].
  intros d3 [] B AF3.
  assert (P3 : prims normal d2 d3). { pose proof (add_attr_children_prims normal (map (fun p => feature_child (fst p) (snd p)) feats)) as Q. specialize (Q ltac:(intros c I; apply in_map_iff in I; destruct I as ((a & b) & <- & _); intros y [<-|[<-|[]]]; reflexivity) d2 key). rewrite B in Q. exact Q. }
  assert (P13 : prims normal d1 d3) by (eapply rtc_trans; eassumption).
  pose proof (typed_prims _ _ _ _ P13 TK1) as (e3 & G3 & T3).
  assert (FU3 : full_ok d3) by (eapply full_prims; [exact P3|exact FU2]).
  assert (TS3 : Forall2 (typed d3) (top :: st) (p :: open)) by (eapply Forall2_typed; [|exact TS]; eapply rtc_trans; eassumption).
  apply fine_bind; [|intros d4 u _ AF4; apply fine_ok, AF4].
  eapply fine_post_add; [exact FU3|exact G3|exact AF3|exact TS3|]. intros W. rewrite T3 in W. destruct (RF W) as (A1 & B1 & s & SI & SG).
  destruct (doc_le_elem _ _ _ _ (prims_doc_le _ _ P13) G1) as (e3' & G3' & [K1 K2 K3]). rewrite G3 in G3'. injection G3' as <-. cbn [e_type e_attribs] in K1, K3.
  assert (KA : e_attribs e3 = filter (fun a => negb (a_encodable a)) own' ++ refs r). { destruct K3 as [K3|((RL & _) & _)]; [exact K3|]. rewrite T3, W in RL. discriminate. }
  rewrite KA. destruct (refers_last (new ++ ids) own' r A1 B1) as (id & LI & II). exists id, s. split; [exact LI|]. split; [|auto].
  apply in_app_iff in II. destruct II as [II|II]; [eapply has_id_le; [apply prims_doc_le, P13|]; eapply store_has_id; [exact NI|exact S|apply gives_id_first, NW, II]|].
  eapply has_id_le; [apply prims_doc_le; eapply rtc_trans; [exact P1|exact P13]|]. apply ID, II.
Qed.
(* from one point of the parser's loop to another, with enough fuel *)
Definition leads (d : document) (st : list nat) (l : list event) (d' : document) (st' : list nat) (l' : list event) : Prop :=
  exists m, forall fuel, m <= fuel -> parse_elements_loop fuel O d st l = parse_elements_loop fuel O d' st' l'.
Lemma leads_refl d st l : leads d st l d st l.
Proof. exists 0. reflexivity. Qed.
Lemma leads_trans d st l d1 st1 l1 d2 st2 l2 : leads d st l d1 st1 l1 -> leads d1 st1 l1 d2 st2 l2 -> leads d st l d2 st2 l2.
Proof. intros (m & A) (m' & B). exists (Nat.max m m'). intros fuel L. rewrite A by lia. apply B. lia. Qed.
Lemma leads_step d st ev l d1 st1 m : (forall fuel, m <= fuel -> elements_step fuel O d st ev = (d1, Ok (PContinue st1))) -> leads d st (ev :: l) d1 st1 l.
Proof. intros H. exists m. intros fuel L. cbn [parse_elements_loop]. rewrite (H _ L). reflexivity. Qed.
Lemma loading_next d st ts ids ev l fuel d1 st1 ts1 ids1 : loading d st ts ids (ev :: l) -> elements_step fuel O d st ev = (d1, Ok (PContinue st1)) ->
  affordable sets d1 -> Forall2 (typed d1) st1 ts1 -> (forall id, In id ids1 -> has_id d1 id \/ In id ids) -> loading d1 st1 ts1 ids1 l.
Proof.
  intros [FU PI TS ID AF] E AF1 TS1 II. pose proof (prims_normal_step fuel O d st ev) as P. rewrite E in P. cbn [fst] in P.
  split; [eapply full_prims; eassumption|apply (elements_step_pinv _ _ _ _ _ _ _ _ PI E)|exact TS1| |exact AF1].
  intros id I. destruct (II id I) as [X|X]; [exact X|]. eapply has_id_le; [apply prims_doc_le, P|apply ID, X].
Qed.
Lemma step_types fuel d st ev d1 r ts : elements_step fuel O d st ev = (d1, r) -> Forall2 (typed d) st ts -> Forall2 (typed d1) st ts.
Proof. intros E. pose proof (prims_normal_step fuel O d st ev) as P. rewrite E in P. apply Forall2_typed, P. Qed.

Lemma start_leads d top st p open ids name attrs l t own feats new : loading d (top :: st) (p :: open) ids (EvStart NsFolia name attrs :: l) ->
  et_from_str name = Some t -> reads_attributes O t attrs own feats -> (t = ET_Feature -> et_annotationtype p <> None) -> covered sets p t own feats ->
  (forall id, In id new -> gives_id own id) -> (N.of_nat (sh_len d + S (length feats)) <= max_element + 1)%N ->
  exists d1, leads d (top :: st) (EvStart NsFolia name attrs :: l) d1 (sh_len d :: top :: st) l /\ loading d1 (sh_len d :: top :: st) (t :: p :: open) (new ++ ids) l /\
    sh_len d1 = sh_len d + S (length feats) /\ follows d d1 /\ stored d (sh_len d) d1 top t own (sh_len d).
Proof.
  intros LD ET RA FE CV NW N. pose proof LD as [FU PI TS ID AF].
  destruct (step_ok sets O d top st (p :: open) (EvStart NsFolia name attrs) l FU PI) as (m & d1 & q & AF1 & H); [|exact TS| |intros fuel; eapply start_fine; eassumption|].
  { intros ns nm at' [[E|[]]|[E|[]]]; try discriminate E; injection E as _ _ <-; eapply reads_readable, RA. }
  { cbn [placed]. intros t' E. rewrite ET in E. injection E as <-. split; [exact FE|exact I]. }
  pose proof (H m (le_n m)) as E. destruct (start_step m O d d top st name attrs l d1 q FU (follows_refl d) PI E) as (t' & own' & fs & fl & -> & ET' & RA' & PP & FO & LEN & OLD & NEW & SD & _).
  rewrite ET in ET'. injection ET' as <-. destruct (reads_same _ _ _ _ _ RA _ _ RA') as (-> & _). rewrite (reads_count _ _ _ _ _ _ _ RA RA') in LEN.
  exists d1. split; [eapply leads_step; intros fuel L; apply (H fuel L)|]. split; [|split; [lia|split; [exact FO|exact SD]]].
  eapply loading_next; [exact LD|exact E|exact AF1| |].
  - constructor; [|eapply step_types; eassumption]. unfold sh in NEW. destruct (get_elementdata d1 (sh_len d)) as [e|] eqn:G; [|discriminate]. exists e. split; [exact G|]. injection NEW as NEW _ _. exact NEW.
  - intros id I. apply in_app_iff in I. destruct I as [I|I]; [left; eapply stored_id; [exact SD|apply NW, I]|right; exact I].
Qed.
Lemma end_leads d key top st p open ids name l t own : loading d (key :: top :: st) (t :: p :: open) ids (EvEnd NsFolia name :: l) ->
  et_from_str name = Some t -> (t = ET_WordReference -> refers (p :: open) ids own) ->
  (t = ET_WordReference -> exists e r, get_elementdata d key = Some e /\ e_type e = t /\ e_attribs e = filter (fun a => negb (a_encodable a)) own ++ refs r) ->
  exists d1, leads d (key :: top :: st) (EvEnd NsFolia name :: l) d1 (top :: st) l /\ loading d1 (top :: st) (p :: open) ids l /\ sh_len d1 = sh_len d /\ follows d d1.
Proof.
  intros LD ET RF AT. pose proof LD as [FU PI TS ID AF].
  destruct (step_ok sets O d key (top :: st) (t :: p :: open) (EvEnd NsFolia name) l FU PI) as (m & d1 & q & AF1 & H); [|exact TS|exact I|intros fuel; eapply end_fine; eassumption|].
  { intros ns nm at' [[E|[]]|[E|[]]]; discriminate. }
  pose proof (H m (le_n m)) as E. destruct (end_step m O d key top st name l d1 q PI E) as (-> & PP & FO & LEN & _).
  exists d1. split; [eapply leads_step; intros fuel L; apply (H fuel L)|]. split; [|auto].
  eapply loading_next; [exact LD|exact E|exact AF1| |auto]. pose proof (step_types _ _ _ _ _ _ _ E TS) as T1. inversion T1; assumption.
Qed.
Lemma empty_leads d top st p open ids name attrs l t own feats new : loading d (top :: st) (p :: open) ids (EvEmpty NsFolia name attrs :: l) ->
  et_from_str name = Some t -> reads_attributes O t attrs own feats -> (t = ET_Feature -> et_annotationtype p <> None) -> covered sets p t own feats ->
  (forall id, In id new -> gives_id own id) -> (N.of_nat (sh_len d + S (length feats)) <= max_element + 1)%N -> (t = ET_WordReference -> refers (p :: open) (new ++ ids) own) ->
  exists d1, leads d (top :: st) (EvEmpty NsFolia name attrs :: l) d1 (top :: st) l /\ loading d1 (top :: st) (p :: open) (new ++ ids) l /\
    sh_len d1 = sh_len d + S (length feats) /\ follows d d1.
Proof.
  intros LD ET RA FE CV NW N RF. pose proof LD as [FU PI TS ID AF].
  destruct (step_ok sets O d top st (p :: open) (EvEmpty NsFolia name attrs) l FU PI) as (m & d1 & q & AF1 & H); [|exact TS| |intros fuel; eapply empty_fine; eassumption|].
  { intros ns nm at' [[E|[]]|[E|[]]]; try discriminate E; injection E as _ _ <-; eapply reads_readable, RA. }
  { cbn [placed]. intros t' E. rewrite ET in E. injection E as <-. split; [exact FE|exact I]. }
  pose proof (H m (le_n m)) as E. destruct (empty_step m d top st name attrs l d1 q FU PI E) as (t' & own' & fs & -> & ET' & RA' & LEN & FO & SD).
  rewrite ET in ET'. injection ET' as <-. destruct (reads_same _ _ _ _ _ RA _ _ RA') as (-> & _). rewrite (reads_count _ _ _ _ _ _ _ RA RA') in LEN.
  exists d1. split; [eapply leads_step; intros fuel L; apply (H fuel L)|]. split; [|split; [lia|exact FO]].
  eapply loading_next; [exact LD|exact E|exact AF1|eapply step_types; eassumption|].
  intros id I. apply in_app_iff in I. destruct I as [I|I]; [left; eapply stored_id; [exact SD|apply NW, I]|right; exact I].
Qed.
(* an event that is passed over *)
Lemma skip_leads d top st ts ids ev l : (forall fuel, elements_step fuel O d (top :: st) ev = (d, Ok (PContinue (top :: st)))) -> loading d (top :: st) ts ids (ev :: l) ->
  leads d (top :: st) (ev :: l) d (top :: st) l /\ loading d (top :: st) ts ids l.
Proof.
  intros E LD. split; [eapply (leads_step _ _ _ _ _ _ 0); intros; apply E|]. eapply loading_next; [exact LD|apply (E 0)|apply LD|apply LD|auto].
Qed.
Lemma push_leads d top st ts ids ev l s mk : (forall s, is_add (mk s) = false) -> (forall s, is_spanref (mk s) = false) ->
  (forall fuel, elements_step fuel O d (top :: st) ev = (push_data d (top :: st) s mk, Ok (PContinue (top :: st)))) -> loading d (top :: st) ts ids (ev :: l) ->
  exists d1, leads d (top :: st) (ev :: l) d1 (top :: st) l /\ loading d1 (top :: st) ts ids l /\ sh_len d1 = sh_len d /\ follows d d1.
Proof.
  intros NA NS E LD. exists (push_data d (top :: st) s mk). split; [eapply (leads_step _ _ _ _ _ _ 0); intros; apply E|]. split; [|split; [|apply follows_push, NA]].
  - eapply loading_next; [exact LD|apply (E 0)| |eapply step_types; [apply (E 0)|apply LD]|auto].
    unfold push_data. destruct (is_blank s); [apply LD|]. eapply affordable_like; [apply like_upd|apply LD].
  - destruct (is_blank s) eqn:B; [unfold push_data; rewrite B; reflexivity|]. rewrite (ga_len _ _ _ _ _ (push_grows d top st s mk NA NS B)). lia.
Qed.
Theorem content_loads nodes ev : xml_events nodes ev -> forall p open ids ids' n, well_formed O sets p open ids nodes ids' n ->
  forall d top st more, loading d (top :: st) (p :: open) ids (ev ++ more) -> (N.of_nat (sh_len d + n) <= max_element + 1)%N ->
  exists d1, leads d (top :: st) (ev ++ more) d1 (top :: st) more /\ loading d1 (top :: st) (p :: open) ids' more /\ sh_len d1 = sh_len d + n /\ follows d d1.
Proof.
  intros X. induction X as [|name attrs inside l rest m X1 IH1 X2 IH2|name attrs rest m X2 IH2|ns name attrs inside l rest m NF X1 IH1 X2 IH2|ns name attrs rest m NF X2 IH2|s rest m X2 IH2|s rest m X2 IH2|s rest m X2 IH2|rest m X2 IH2];
    intros p open ids ids' n W d top st more LD N; inversion W; subst; try match goal with Q : well_formed _ _ _ _ _ rest _ _ |- _ => rename Q into WR end; try match goal with Q : well_formed _ _ _ _ _ inside _ _ |- _ => rename Q into WI end; cbn [app] in *.
  - exists d. split; [apply leads_refl|]. split; [exact LD|]. split; [lia|apply follows_refl].
  - rewrite <- app_assoc in *. cbn [app] in *.
    destruct (start_leads _ _ _ _ _ _ _ _ _ t own feats new LD) as (d1 & A1 & B1 & C1 & D1 & E1); try assumption; [lia|].
    destruct (IH1 _ _ _ _ _ WI _ _ _ _ B1) as (d2 & A2 & B2 & C2 & D2); [lia|].
    destruct (end_leads _ _ _ _ _ _ _ _ _ t own B2) as (d3 & A3 & B3 & C3 & D3); try assumption.
    { intros ->. eapply stored_attribs; [|reflexivity]. eapply stored_mono; [apply follows_refl|apply le_n|exact D2|exact E1]. }
    destruct (IH2 _ _ _ _ _ WR _ _ _ _ B3) as (d4 & A4 & B4 & C4 & D4); [lia|].
    exists d4. split; [eapply leads_trans; [exact A1|eapply leads_trans; [exact A2|eapply leads_trans; [exact A3|exact A4]]]|]. split; [exact B4|]. split; [lia|].
    eapply follows_trans; [exact D1|eapply follows_trans; [exact D2|eapply follows_trans; [exact D3|exact D4]]].
  - match goal with Q : well_formed _ _ _ _ _ [] _ _ |- _ => inversion Q; subst end.
    destruct (empty_leads _ _ _ _ _ _ _ _ _ t own feats new LD) as (d1 & A1 & B1 & C1 & D1); try assumption; [lia|].
    destruct (IH2 _ _ _ _ _ WR _ _ _ _ B1) as (d4 & A4 & B4 & C4 & D4); [lia|].
    exists d4. split; [eapply leads_trans; [exact A1|exact A4]|]. split; [exact B4|]. split; [lia|]. eapply follows_trans; eassumption.
  - rewrite <- app_assoc in *. cbn [app] in *.
    destruct (fun E => skip_leads _ _ _ _ _ _ _ E LD) as (A1 & B1); [intros; destruct ns; [congruence|reflexivity|reflexivity]|].
    destruct (IH1 _ _ _ _ _ WI _ _ _ _ B1) as (d2 & A2 & B2 & C2 & D2); [lia|].
    destruct (fun E => skip_leads _ _ _ _ _ _ _ E B2) as (A3 & B3); [intros; destruct ns; [congruence|reflexivity|reflexivity]|].
    destruct (IH2 _ _ _ _ _ WR _ _ _ _ B3) as (d4 & A4 & B4 & C4 & D4); [lia|].
    exists d4. split; [eapply leads_trans; [exact A1|eapply leads_trans; [exact A2|eapply leads_trans; [exact A3|exact A4]]]|]. split; [exact B4|]. split; [lia|]. eapply follows_trans; eassumption.
  - match goal with Q : well_formed _ _ _ _ _ [] _ _ |- _ => inversion Q; subst end.
    destruct (fun E => skip_leads _ _ _ _ _ _ _ E LD) as (A1 & B1); [intros; destruct ns; [congruence|reflexivity|reflexivity]|].
    destruct (IH2 _ _ _ _ _ WR _ _ _ _ B1) as (d4 & A4 & B4 & C4 & D4); [lia|].
    exists d4. split; [eapply leads_trans; [exact A1|exact A4]|]. split; [exact B4|]. split; [lia|exact D4].
  - destruct (fun E => push_leads _ _ _ _ _ _ _ s DText (fun _ => eq_refl) (fun _ => eq_refl) E LD) as (d1 & A1 & B1 & C1 & D1); [reflexivity|].
    destruct (IH2 _ _ _ _ _ WR _ _ _ _ B1) as (d4 & A4 & B4 & C4 & D4); [lia|].
    exists d4. split; [eapply leads_trans; [exact A1|exact A4]|]. split; [exact B4|]. split; [lia|eapply follows_trans; eassumption].
  - destruct (fun E => push_leads _ _ _ _ _ _ _ s DText (fun _ => eq_refl) (fun _ => eq_refl) E LD) as (d1 & A1 & B1 & C1 & D1); [reflexivity|].
    destruct (IH2 _ _ _ _ _ WR _ _ _ _ B1) as (d4 & A4 & B4 & C4 & D4); [lia|].
    exists d4. split; [eapply leads_trans; [exact A1|exact A4]|]. split; [exact B4|]. split; [lia|eapply follows_trans; eassumption].
  - destruct (fun E => push_leads _ _ _ _ _ _ _ s DComment (fun _ => eq_refl) (fun _ => eq_refl) E LD) as (d1 & A1 & B1 & C1 & D1); [reflexivity|].
    destruct (IH2 _ _ _ _ _ WR _ _ _ _ B1) as (d4 & A4 & B4 & C4 & D4); [lia|].
    exists d4. split; [eapply leads_trans; [exact A1|exact A4]|]. split; [exact B4|]. split; [lia|eapply follows_trans; eassumption].
  - destruct (fun E => skip_leads _ _ _ _ _ _ _ E LD) as (A1 & B1); [reflexivity|].
    destruct (IH2 _ _ _ _ _ WR _ _ _ _ B1) as (d4 & A4 & B4 & C4 & D4); [lia|].
    exists d4. split; [eapply leads_trans; [exact A1|exact A4]|]. split; [exact B4|]. split; [lia|exact D4].
Qed.
End Loads.
