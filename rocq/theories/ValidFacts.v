(* Errors that adding elements can give, what adding keeps, layers *)
From Coq Require Import String List Bool Arith NArith Lia.
From Verif Require Import Base BaseFacts Types TypesFacts SpecTable Attrib AttribFacts Element Store StoreFacts Metadata Document Select DocOps Xml Parser History Spec
  FrameFacts InvFacts DocFacts StoreThms InternFacts EncodeFacts LinkFacts TreeFacts ForestFacts SelSpec SelectFacts PropsEncode PropsLinks PropsSelect.
Import ListNotations.
Open Scope list_scope.

(* ---------------------------------------------------------------- the errors of the validation never come from storing *)
Definition mild {A} (r : res A) : Prop := r <> Err EValidation /\ r <> Err EIncomplete.
Lemma mild_ok {A} (a : A) : mild (Ok a). Proof. split; discriminate. Qed.
Lemma mild_panic {A} : mild (@Panic A). Proof. split; discriminate. Qed.
Lemma mild_fuel {A} : mild (@OutOfFuel A). Proof. split; discriminate. Qed.
Lemma mild_err {A} x : x <> EValidation -> x <> EIncomplete -> mild (@Err A x).
Proof. intros A1 A2. split; intros H; inversion H; contradiction. Qed.
Lemma mild_rbind {A B} (r : res A) (f : A -> res B) : mild r -> (forall a, r = Ok a -> mild (f a)) -> mild (rbind r f).
Proof. intros (H1 & H2) K. destruct r as [a|x| |]; cbn; [apply K; reflexivity|apply mild_err; congruence|apply mild_panic|apply mild_fuel]. Qed.
Lemma mild_sbind {S A B} (r : S * res A) (f : S -> A -> S * res B) : mild (snd r) -> (forall s a, r = (s, Ok a) -> mild (snd (f s a))) -> mild (snd (sbind r f)).
Proof. intros (H1 & H2) K. destruct r as [s [a|x| |]]; cbn in *; [apply K; reflexivity|apply mild_err; congruence|apply mild_panic|apply mild_fuel]. Qed.
Lemma mild_map_err {S A} (r : S * res A) : mild (snd r) -> mild (snd (map_err EInternal r)).
Proof. destruct r as [s [a|x| |]]; cbn; auto. intros _. apply mild_err; discriminate. Qed.
Lemma mild_ok_or {A} (o : option A) x : x <> EValidation -> x <> EIncomplete -> mild (ok_or o x).
Proof. intros. destruct o; [apply mild_ok|apply mild_err; assumption]. Qed.
Lemma mild_unwrap {A} (r : res A) : mild (unwrap r). Proof. destruct r; split; discriminate. Qed.
Lemma mild_expect {A} (r : option A) : mild (expect r). Proof. destruct r; split; discriminate. Qed.
Lemma mild_scan p l : mild (scan_decoded p l).
Proof. induction l as [|a l IH]; cbn; [apply mild_ok|]. destruct (p a); [apply mild_ok|]. destruct (decodable a); [apply mild_err; discriminate|exact IH]. Qed.
Lemma mild_st_add {T} m (mi : T -> option string) ak s x : mild (snd (st_add m mi ak s x)).
Proof. unfold st_add. destruct (st_get_key mi s x); [apply mild_ok|]. cbn zeta. destruct (_ <=? _)%N; [apply mild_ok|apply mild_err; discriminate]. Qed.
Lemma mild_declare d t s a f : mild (snd (declare d t s a f)).
Proof.
  unfold declare. destruct (get_declaration_key_by_id d (index_id t s)); [apply mild_ok|]. cbv zeta. apply mild_sbind; [|intros; apply mild_ok].
  match goal with |- mild (snd (match ?x with _ => _ end)) => destruct x end; [apply mild_ok|]. unfold add_declaration.
  pose proof (mild_st_add max_dec d_maybe_id d_assign_key (doc_decls d) (d_new t s a f)) as H. destruct (st_add _ _ _ _ _). exact H.
Qed.
Lemma mild_encode d e c : mild (snd (encode d e c)).
Proof.
  unfold encode. destruct (negb (e_encodable e)); [apply mild_ok|]. apply mild_sbind; [|intros; apply mild_ok]. unfold encode_refs.
  destruct (et_annotationtype (e_type e)) as [t|].
  - apply mild_sbind; [apply mild_unwrap|]. intros d1 s _. apply mild_sbind; [apply mild_declare|]. intros d2 dk _.
    destruct (intern_opt d2 dk d_add_class (e_class e)) as [d3 ck]. destruct (get_declaration d3 dk) as [dec|]; [|apply mild_ok].
    destruct (d_default_processor dec); [apply mild_ok|]. destruct (doc_active d3); apply mild_ok.
  - destruct (e_type e); try apply mild_ok. destruct c as [pk|]; [|apply mild_err; discriminate].
    apply mild_sbind; [apply mild_ok_or; discriminate|]. intros d1 pe _. apply mild_sbind; [apply mild_expect|]. intros d2 t _.
    apply mild_sbind; [apply mild_unwrap|]. intros d3 s _. apply mild_sbind; [apply mild_declare|]. intros d4 dk _.
    destruct (intern_opt d4 dk d_add_subclass (e_class e)) as [d5 ck]. destruct (intern_opt d5 dk d_add_subset (e_subset e)) as [d6 sk]. apply mild_ok.
Qed.
Lemma mild_store_add d e c : mild (snd (store_add d e c)).
Proof.
  unfold store_add. apply mild_sbind; [destruct (e_encodable e); [apply mild_encode|apply mild_ok]|]. intros d1 e1 _.
  pose proof (mild_st_add max_element e_maybe_id e_assign_key (doc_elements d1) e1) as H. destruct (st_add _ _ _ _ _). exact H.
Qed.
Lemma mild_anc_next d s : forall fuel k, mild (anc_next fuel d s k).
Proof.
  induction fuel as [|f IH]; intros k; [apply mild_fuel|]. cbn [anc_next]. destruct (get_elementdata d k) as [e|]; [|apply mild_ok].
  destruct (e_parent e) as [p|]; [|apply mild_ok]. destruct (matches s d (DElement p)) as [[]| | |]; try apply mild_panic; destruct (get_elementdata d p); try apply mild_panic; [apply mild_ok|apply IH].
Qed.
Lemma mild_sel_find d p f : (forall k e, mild (f k e)) -> forall fuel st, mild (sel_find fuel d p st f).
Proof.
  intros F. induction fuel as [|n IH]; intros st; [apply mild_fuel|]. cbn [sel_find]. destruct (sel_step d p st) as [i st'|st'|st'|]; [|apply IH|apply mild_ok|apply mild_panic].
  destruct (si_data i); try apply IH; (destruct (get_elementdata d k) as [e|]; [|apply mild_panic]; apply mild_rbind; [apply F|]; intros [x|] _; [apply mild_ok|apply IH]).
Qed.
Lemma mild_from_query d q : mild (from_query d q).
Proof.
  unfold from_query. apply mild_rbind; [|intros; apply mild_ok]. destruct (q_subset q); try apply mild_ok.
  match goal with |- mild (match ?x with _ => _ end) => destruct x end; try (apply mild_err; discriminate). apply mild_ok.
Qed.
Lemma mild_post_add fuel d k : mild (snd (post_add fuel d k None)).
Proof.
  unfold post_add. destruct (get_elementdata d k) as [e|]; [|apply mild_err; discriminate].
  assert (W : mild (snd (post_add_wref fuel d k e None))).
  { unfold post_add_wref. destruct (attribs_last_idref (e_attribs e) None) as [id|]; [|apply mild_err; discriminate].
    apply mild_sbind.
    - cbn [snd]. apply mild_rbind; [apply mild_anc_next|]. intros [x|] _; [|apply mild_ok]. apply mild_rbind; [|intros; apply mild_ok].
      unfold key_of. destruct (get_elementdata d x); [apply mild_expect|apply mild_panic].
    - intros d1 [sk|] _; [|apply mild_err; discriminate]. apply mild_sbind.
      + cbn [snd]. unfold key_by_id. destruct (get_element_key_by_id d1 id) as [x|]; [|apply mild_ok]. destruct (get_elementdata d1 x); [apply mild_ok|apply mild_panic].
      + intros d2 [tk|] _; [apply mild_ok|apply mild_err; discriminate]. }
  assert (L : mild (snd (if group_contains EG_Layer (e_type e) && negb (e_has_attrib e AB_SET) then
            let! d, dk := (d, layer_declaration fuel d e) in
            match dk with
            | Some dk => (upd_element d k (fun x => e_with_attribs x [A_DeclarationRef dk]), Ok tt)
            | None => (d, Ok tt)
            end
          else (d, Ok tt)))).
  { destruct (_ && _); [|apply mild_ok]. apply mild_sbind; [|intros d1 [dk|] _; apply mild_ok]. cbn [snd]. unfold layer_declaration.
    apply mild_rbind; [apply mild_from_query|]. intros s _. apply mild_rbind; [apply mild_expect|]. intros own _. apply mild_sel_find.
    intros k' x. destruct (at_opt_eqb _ _); [apply mild_unwrap|apply mild_ok]. }
  destruct (e_type e); try exact L. exact W.
Qed.
Lemma mild_link fuel p l : forall d, mild (snd (link_children fuel d p l)).
Proof.
  induction l as [|k l IH]; intros d; [apply mild_ok|]. cbn [link_children]. apply mild_sbind; [apply mild_post_add|]. intros d2 u _. apply IH.
Qed.
Lemma mild_attach d p c : mild (snd (attach_element d p c)).
Proof. unfold attach_element. destruct (get_elementdata d p); [|apply mild_err; discriminate]. destruct (get_elementdata d c); [apply mild_ok|apply mild_err; discriminate]. Qed.
Lemma mild_add_children fuel e : forall d, mild (snd (add_children fuel d e)).
Proof.
  induction e as [e IH] using elem_data_ind. intros d. rewrite add_children_eq. destruct (existsb is_add (e_data e)); [|apply mild_ok].
  apply mild_sbind; [|intros; apply mild_ok]. revert d. induction (e_data e) as [|x l IHl]; intros d; [apply mild_ok|].
  assert (IH' : forall c, In (DAddElement c) l -> forall d, mild (snd (add_children fuel d c))) by (intros c I; apply IH; right; exact I). specialize (IHl IH').
  destruct x; cbn [add_data]; try (apply mild_sbind; [apply IHl|intros; apply mild_ok]).
  apply mild_sbind; [apply IH; left; reflexivity|]. intros d1 y _. apply mild_sbind; [apply mild_store_add|]. intros d2 ck _.
  apply mild_sbind; [apply mild_link|]. intros d3 u _. apply mild_sbind; [apply IHl|intros; apply mild_ok].
Qed.
Lemma mild_add_element_to fuel d p e : mild (snd (add_element_to fuel d p e)).
Proof.
  unfold add_element_to. apply mild_sbind; [apply mild_add_children|]. intros d1 x _. apply mild_sbind; [apply mild_map_err, mild_store_add|]. intros d2 ck _.
  apply mild_sbind; [apply mild_link|]. intros d3 u _. apply mild_sbind; [apply mild_attach|]. intros d4 v _. apply mild_sbind; [apply mild_post_add|intros; apply mild_ok].
Qed.

(* ---------------------------------------------------------------- layers *)
(* every span annotation is accepted by its layer *)
Lemma layer_accepts t a lt : group_contains EG_Span t = true -> et_annotationtype t = Some a -> at_layertype a = Some lt ->
  existsb (accepts_type t) (p_accepted_data (props lt)) = true.
Proof. destruct t; vm_compute; try discriminate; intros _ H; injection H as <-; intros H; injection H as <-; reflexivity. Qed.
Lemma yields_matched d p st i st' : sp_inclusive p = false -> sel_step d p st = Yield i st' -> matches (sp_sel p) d (si_data i) = Ok true.
Proof.
  intros NI. unfold sel_step. rewrite NI. cbn [andb]. destruct (_ && _); [discriminate|]. unfold sel_advance. cbn [ss_stack].
  destruct (ss_stack st) as [|[k c] rest]; [discriminate|]. destruct (get_elementdata d k) as [pe|]; [|discriminate].
  destruct (e_data_at pe c) as [item|]; [|discriminate]. cbv zeta. destruct (matches (sp_sel p) d item) as [[]| | |] eqn:M; try discriminate.
  destruct (dedup d p item _ _) as [ret [a b]]. destruct ret; [|discriminate]. intros H. injection H as <- _. exact M.
Qed.
Lemma first_matched d p k : sp_inclusive p = false -> forall fuel st, sel_first fuel d p st = Ok (Some k) ->
  exists x, item_key x = [k] /\ matches (sp_sel p) d x = Ok true /\ get_elementdata d k <> None.
Proof.
  intros NI. induction fuel as [|f IH]; intros st; [discriminate|]. cbn [sel_first]. destruct (sel_step d p st) as [i st'|st'|st'|] eqn:E; try discriminate; [|apply IH].
  apply (yields_matched _ _ _ _ _ NI) in E. destruct (si_data i) as [t|j|t|j|x] eqn:D; try apply IH; (destruct (get_elementdata d j) eqn:G; [|discriminate]);
    intros H; injection H as <-; [exists (DElement j)|exists (DSpanReference j)]; rewrite G; (split; [reflexivity|split; [exact E|discriminate]]).
Qed.
Lemma layer_key_type fuel d key t set q lt : reachable anything d -> at_layertype t = Some lt -> get_layer_key fuel d key t set = Ok (Some q) ->
  exists qe, get_elementdata d q = Some qe /\ e_type qe = lt.
Proof.
  intros R L H. unfold get_layer_key in H. rewrite L in H. cbn [ok_or rbind] in H. apply rbind_ok in H. destruct H as (s & FQ & H).
  destruct (get_elementdata d key) as [e|]; [|discriminate]. apply rbind_ok in H. destruct H as (own & _ & H). apply rbind_ok in H. destruct H as ([k|] & SF & H); [|discriminate].
  injection H as H. unfold select_first in SF. apply first_matched in SF; [|reflexivity]. destruct SF as (x & IK & M & NN).
  destruct (get_elementdata d k) as [ke|] eqn:G; [|congruence]. cbn [obind] in H.
  assert (Q : q = k). { destruct (reachable_ok _ _ anything_ok R) as (((_ & K & _) & _) & _). pose proof (K k ke G) as Z. cbn in Z. congruence. }
  subst q. exists ke. split; [exact G|]. apply matches_spec in M. cbn [sp_sel] in M. destruct M as (M & _). specialize (M eq_refl).
  unfold from_query in FQ. apply rbind_ok in FQ. destruct FQ as (sub & _ & FQ). injection FQ as <-. destruct M as (a & [<-|[]] & A).
  assert (X : accepts_one d (mkSel [DS_Elements] (CIs lt) CAny CAny (match match set with Some s => CIs s | None => CNone end with CIs s => encode_set d (CIs lt) (Some s) | CAny => CAny | CSome => CSome | CNone => encode_set d (CIs lt) None | CUnmatchable => CUnmatchable end) CAny CAny sub CAny CAny CAny None) x -> e_type ke = lt).
  { destruct x as [tx|j|tx|j|ex]; try discriminate IK; injection IK as ->; intros (_ & e' & G' & _ & T & _); rewrite G in G'; injection G' as <-; cbn in T; congruence. }
  apply X, A.
Qed.

(* ---------------------------------------------------------------- the three ways annotate adds *)
Definition in_layer (d : document) (p : nat) (e : elementdata) : Prop :=
  In (e_type e) (group_elementtypes EG_Span) /\ exists pe, get_elementdata d p = Some pe /\ (p_wrefable (props (e_type pe)) = true \/ In (e_type pe) (group_elementtypes EG_Structure)).
Lemma group_in g t : group_contains g t = true <-> In t (group_elementtypes g).
Proof. unfold group_contains. rewrite existsb_exists. split; [intros (x & I & E); apply et_eqb_iff in E; congruence|intros I; exists t; split; [exact I|apply et_eqb_iff; reflexivity]]. Qed.
Lemma annotate_inv fuel d p e d1 r : annotate fuel d p e = (d1, r) ->
  (d1 = d /\ forall k, r <> Ok k) \/
  (add_checked fuel d p e = (d1, r) /\ ~ in_layer d p e) \/
  (in_layer d p e /\ exists h t lt set, et_annotationtype (e_type e) = Some t /\ at_layertype t = Some lt /\ add_in_layer fuel d p h t lt set e = (d1, r) /\
     (set = None \/ exists s, set = Some s /\ (e_set e = Ok (Some s) \/ (e_set e = Ok None /\ get_default_set d t = Some s))) /\ set <> None /\
     (forall pe, get_elementdata d p = Some pe -> p_wrefable (props (e_type pe)) = false -> h = p)).
Proof.
  unfold annotate. destruct (get_elementdata d p) as [pe|] eqn:GP; [|intros H; injection H as <- <-; left; split; [reflexivity|discriminate]].
  destruct (group_contains EG_Span (e_type e)) eqn:SP.
  2: { intros H. right. left. split; [exact H|]. intros (A & _). apply group_in in A. congruence. }
  destruct (et_annotationtype (e_type e)) as [t|] eqn:AT; [|intros H; injection H as <- <-; left; split; [reflexivity|discriminate]]. cbn [expect sbind].
  destruct (at_layertype t) as [lt|] eqn:LT; [|intros H; injection H as <- <-; left; split; [reflexivity|discriminate]]. cbn [ok_or sbind]. cbv zeta.
  destruct (p_wrefable (props (e_type pe))) eqn:WR.
  - cbn [negb andb orb]. intros H.
    match type of H with match ?x with _ => _ end = _ => destruct x as [set| | |] eqn:SE end; cbn [sbind] in H; try (injection H as <- <-; left; split; [reflexivity|discriminate]).
    destruct (get_span_keys d e) as [|x l]; [injection H as <- <-; left; split; [reflexivity|discriminate]|].
    destruct (unwrap (from_query d structure_query)) as [s| | |]; cbn [sbind] in H; try (injection H as <- <-; left; split; [reflexivity|discriminate]).
    destruct (common_ancestors fuel d s (x :: l)) as [anc| | |]; cbn [sbind] in H; try (injection H as <- <-; left; split; [reflexivity|discriminate]).
    destruct (find (suitable d lt) anc) as [a|]; [|injection H as <- <-; left; split; [reflexivity|discriminate]].
    right. right. split; [split; [apply group_in, SP|exists pe; auto]|]. exists a, t, lt, set. split; [reflexivity|]. split; [exact LT|]. split; [exact H|].
    assert (X : exists s0, set = Some s0 /\ (e_set e = Ok (Some s0) \/ (e_set e = Ok None /\ get_default_set d t = Some s0))).
    { destruct (e_set e) as [[u|]| | |]; cbn [rbind] in SE; try discriminate; [injection SE as <-; eauto|]. destruct (get_default_set d t) as [u|]; [|discriminate]. injection SE as <-. eauto. }
    split; [auto|]. split; [destruct X as (s0 & -> & _); discriminate|]. intros pe' E. congruence.
  - cbn [negb andb orb]. destruct (group_contains EG_Structure (e_type pe)) eqn:ST.
    + intros H. match type of H with match ?x with _ => _ end = _ => destruct x as [set| | |] eqn:SE end; cbn [sbind] in H; try (injection H as <- <-; left; split; [reflexivity|discriminate]).
      right. right. split; [split; [apply group_in, SP|exists pe; split; [exact GP|right; apply group_in, ST]]|]. exists p, t, lt, set. split; [reflexivity|]. split; [exact LT|]. split; [exact H|].
      assert (X : exists s0, set = Some s0 /\ (e_set e = Ok (Some s0) \/ (e_set e = Ok None /\ get_default_set d t = Some s0))).
      { destruct (e_set e) as [[u|]| | |]; cbn [rbind] in SE; try discriminate; [injection SE as <-; eauto|]. destruct (get_default_set d t) as [u|]; [|discriminate]. injection SE as <-. eauto. }
      split; [auto|]. split; [destruct X as (s0 & -> & _); discriminate|]. auto.
    + intros H. right. left. cbn [sbind] in H. split; [exact H|]. intros (_ & pe' & E & [A|A]); rewrite GP in E; injection E as <-; [congruence|apply group_in in A; congruence].
Qed.
Lemma add_checked_inv fuel d p e d1 r : add_checked fuel d p e = (d1, r) ->
  (d1 = d /\ forall k, r <> Ok k) \/ (check_element_addable d p e = Ok tt /\ add_element_to fuel d p e = (d1, r)).
Proof.
  unfold add_checked. destruct (check_element_addable d p e) as [[]| | |] eqn:C; cbn [sbind]; intros H; [right; auto|..]; injection H as <- <-; left; (split; [reflexivity|discriminate]).
Qed.
Definition new_layer (lt : ElementType) (set : option string) : elementdata := match set with Some s => e_set_attrib (e_new lt) (A_Set s) | None => e_new lt end.
Lemma new_layer_type lt set : e_type (new_layer lt set) = lt. Proof. destruct set; reflexivity. Qed.
Lemma check_ok d p e u : check_element_addable d p e = Ok u -> exists pe, get_elementdata d p = Some pe /\ in_list (e_type e) (p_accepted_data (props (e_type pe))).
Proof.
  unfold check_element_addable. destruct (get_elementdata d p) as [pe|]; [|discriminate]. destruct (existsb _ _) eqn:E; [|discriminate].
  intros _. exists pe. split; [reflexivity|]. apply accepts_type_spec, E.
Qed.
(* a layer is found, or made and then found fit *)
Lemma add_in_layer_inv fuel d lo ho t lt set e d1 r : group_contains EG_Span (e_type e) = true -> et_annotationtype (e_type e) = Some t -> at_layertype t = Some lt ->
  add_in_layer fuel d lo ho t lt set e = (d1, r) ->
  (d1 = d /\ forall k, r <> Ok k) \/
  (exists lk, get_layer_key fuel d lo t set = Ok (Some lk) /\ check_element_addable d lk e = Ok tt /\ add_element_to fuel d lk e = (d1, r)) \/
  (get_layer_key fuel d lo t set = Ok None /\ check_element_addable d ho (new_layer lt set) = Ok tt /\ exists d2 r2, add_element_to fuel d ho (new_layer lt set) = (d2, r2) /\
     (((forall k, r2 <> Ok k) /\ d1 = d2 /\ r = match r2 with Err x => Err x | Panic => Panic | _ => OutOfFuel end) \/
      exists lk, r2 = Ok lk /\ check_element_addable d2 lk e = Ok tt /\ add_element_to fuel d2 lk e = (d1, r))).
Proof.
  intros SP AT LT. unfold add_in_layer. fold (new_layer lt set). destruct (get_layer_key fuel d lo t set) as [[lk|]| | |]; cbn [sbind]; try (intros H; injection H as <- <-; left; split; [reflexivity|discriminate]).
  - destruct (check_element_addable d lk e) as [[]| | |] eqn:C; cbn [sbind]; intros H; try (injection H as <- <-; left; split; [reflexivity|discriminate]). right. left. exists lk. auto.
  - cbv zeta. destruct (check_element_addable d ho (new_layer lt set)) as [[]| | |] eqn:C; cbn [sbind]; try (intros H; injection H as <- <-; left; split; [reflexivity|discriminate]).
    destruct (add_element_to fuel d ho (new_layer lt set)) as [d2 r2] eqn:A. destruct r2 as [lk|x| |]; cbn [sbind];
      try (intros H; injection H as <- <-; right; right; split; [reflexivity|]; split; [reflexivity|]; eexists _, _; split; [reflexivity|]; left; split; [discriminate|auto]).
    assert (C2 : check_element_addable d2 lk e = Ok tt).
    { destruct (fresh_for_layer lt set d) as (FL & IL). apply check_exists in C. destruct (C23_add_element_to_appends_tree _ _ _ _ _ _ C FL A) as (_ & RE & _).
      fold (new_layer lt set) in RE. apply renders_eq in RE. destruct RE as (s & G & T & _). rewrite new_layer_type in T. unfold sh in G. destruct (get_elementdata d2 lk) as [le|] eqn:GL; [|discriminate].
      injection G as <-. cbn in T. unfold check_element_addable. rewrite GL, T, (layer_accepts _ _ _ SP AT LT). reflexivity. }
    rewrite C2. cbn [sbind]. intros H. right. right. split; [reflexivity|]. split; [reflexivity|]. eexists _, _. split; [reflexivity|]. right. exists lk. auto.
Qed.

(* ---------------------------------------------------------------- adding only appends to the elements that are there *)
(* the elements below n keep type and attributes, and their content (references from words to spans included) only grows at the end *)
Definition grows (n : nat) (d d' : document) : Prop := forall k e, k < n -> get_elementdata d k = Some e ->
  exists e' l, get_elementdata d' k = Some e' /\ e_type e' = e_type e /\ e_attribs e' = e_attribs e /\ e_data e' = e_data e ++ l.
Lemma grows_refl n d : grows n d d.
Proof. intros k e _ G. exists e, []. rewrite app_nil_r. auto. Qed.
Lemma grows_trans n a b c : grows n a b -> grows n b c -> grows n a c.
Proof.
  intros A B k e K G. destruct (A k e K G) as (e1 & l1 & G1 & T1 & A1 & D1). destruct (B k e1 K G1) as (e2 & l2 & G2 & T2 & A2 & D2).
  exists e2, (l1 ++ l2). split; [exact G2|]. split; [congruence|]. split; [congruence|]. rewrite D2, D1, app_assoc. reflexivity.
Qed.
Lemma grows_less n m d d' : m <= n -> grows n d d' -> grows m d d'.
Proof. intros L G k e K. apply G. lia. Qed.
Lemma grows_upd n d k f : (n <= k \/ forall e, e_type (f e) = e_type e /\ e_attribs (f e) = e_attribs e /\ exists l, e_data (f e) = e_data e ++ l) -> grows n d (upd_element d k f).
Proof.
  intros H j e J G. rewrite get_upd_element. destruct (Nat.eqb_spec j k) as [->|NE]; [|exists e, []; rewrite app_nil_r; auto].
  rewrite G. cbn. destruct H as [H|H]; [lia|]. destruct (H e) as (T & A & l & D). eauto 10.
Qed.
Lemma grows_parent n d k p : grows n d (upd_element d k (e_set_parent p)).
Proof. apply grows_upd. right. intros e. split; [reflexivity|]. split; [reflexivity|]. exists []. rewrite app_nil_r. reflexivity. Qed.
Lemma grows_push n d k x : grows n d (upd_element d k (fun e => e_push e x)).
Proof. apply grows_upd. right. intros e. split; [reflexivity|]. split; [reflexivity|]. exists [x]. reflexivity. Qed.
Lemma store_add_old d e ctx k x : get_elementdata d k = Some x -> get_elementdata (fst (store_add d e ctx)) k = Some x.
Proof.
  intros G. unfold store_add. pose proof (encode_elements d e ctx) as EE.
  assert (EE' : doc_elements (fst (if e_encodable e then encode d e ctx else (d, Ok e))) = doc_elements d) by (destruct (e_encodable e); [exact EE|reflexivity]).
  destruct (if e_encodable e then encode d e ctx else (d, Ok e)) as [d1 [e1| | |]]; cbn [sbind fst] in *; try (unfold get_elementdata; rewrite EE'; exact G).
  unfold st_add. destruct (st_get_key e_maybe_id (doc_elements d1) e1); [unfold get_elementdata; cbn; rewrite EE'; exact G|].
  cbv zeta. destruct (_ <=? _)%N; [|unfold get_elementdata; cbn; rewrite EE'; exact G]. cbn [fst]. unfold get_elementdata in *. cbn. rewrite EE'. unfold st_get in *. cbn [st_items].
  destruct (nth_error (st_items (doc_elements d)) k) eqn:N; [|discriminate]. rewrite nth_error_app1 by (apply nth_error_Some; congruence). rewrite N. exact G.
Qed.
Lemma grows_store n d e ctx : grows n d (fst (store_add d e ctx)).
Proof. intros k x _ G. exists x, []. rewrite app_nil_r. split; [apply store_add_old, G|auto]. Qed.
Lemma grows_post_add n fuel d k : n <= k -> grows n d (fst (post_add fuel d k None)).
Proof.
  intros N. unfold post_add. destruct (get_elementdata d k) as [e|]; [|apply grows_refl].
  assert (W : grows n d (fst (post_add_wref fuel d k e None))).
  { unfold post_add_wref. destruct (attribs_last_idref (e_attribs e) None) as [id|]; [|apply grows_refl].
    match goal with |- grows _ _ (fst (sbind (d, ?x) _)) => destruct x as [[sk|]| | |] end; cbn [sbind fst]; try apply grows_refl.
    destruct (key_by_id d id) as [[tk|]| | |]; cbn [sbind fst]; try apply grows_refl. apply grows_push. }
  assert (L : grows n d (fst (if group_contains EG_Layer (e_type e) && negb (e_has_attrib e AB_SET) then
            let! d, dk := (d, layer_declaration fuel d e) in
            match dk with
            | Some dk => (upd_element d k (fun x => e_with_attribs x [A_DeclarationRef dk]), Ok tt)
            | None => (d, Ok tt)
            end
          else (d, Ok tt)))).
  { destruct (_ && _); [|apply grows_refl]. destruct (layer_declaration fuel d e) as [[dk|]| | |]; cbn [sbind fst]; try apply grows_refl. apply grows_upd. left. exact N. }
  destruct (e_type e); try exact L. exact W.
Qed.
Lemma grows_link n fuel p l : forall d, (forall k, In k l -> n <= k) -> grows n d (fst (link_children fuel d p l)).
Proof.
  induction l as [|k l IH]; intros d H; [apply grows_refl|]. cbn [link_children].
  pose proof (grows_post_add n fuel (upd_element d k (e_set_parent (Some p))) k (H k (or_introl eq_refl))) as PA.
  destruct (post_add fuel (upd_element d k (e_set_parent (Some p))) k None) as [d2 [u| | |]]; cbn [sbind fst] in *;
    try (eapply grows_trans; [apply grows_parent|exact PA]).
  eapply grows_trans; [apply grows_parent|]. eapply grows_trans; [exact PA|]. apply IH. intros j J. apply H. right. exact J.
Qed.
Lemma grows_data fuel e : forall d d1 l ks, add_data fuel d (e_data e) = (d1, Ok (l, ks)) -> new_element e -> NoDup (ids_in e) -> (forall id, In id (ids_in e) -> ~ has_id d id) ->
  grows (sh_len d) d d1.
Proof.
  induction e as [e IH] using elem_ind. intros d d1 l ks H NE ND NI.
  assert (NIT : new_items (e_data e)) by (inversion NE; split; [|split]; assumption).
  assert (NDD : NoDup (ids_data (e_data e))). { rewrite ids_in_eq in ND. apply NoDup_app_inv in ND. tauto. }
  assert (NID : forall id, In id (ids_data (e_data e)) -> ~ has_id d id). { intros id I. apply NI. rewrite ids_in_eq, in_app_iff. auto. }
  clear NE ND NI. revert d l ks H NDD NID. induction (e_data e) as [|x r IHr]; intros d l ks H ND NI.
  - cbn in H. inversion H; subst. apply grows_refl.
  - inversion IH as [|x' r' HX HR]; subst. destruct (new_items_cons _ _ NIT) as (NR & NX). specialize (IHr HR NR). destruct x; cbn [add_data] in H; try contradiction.
    + apply sbind_ok in H. destruct H as (d2 & y & A & H). inversion H; subst; clear H. destruct y as [l' ks']. apply (IHr _ _ _ A ND NI).
    + apply sbind_ok in H. destruct H as (d2 & y & A & H). inversion H; subst; clear H. destruct y as [l' ks']. apply (IHr _ _ _ A ND NI).
    + apply sbind_ok in H. destruct H as (dA & z & A & H). apply sbind_ok in H. destruct H as (dB & ck & B & H). apply sbind_ok in H. destruct H as (dC & u & C & H).
      apply sbind_ok in H. destruct H as (dD & w & D & H). inversion H; subst; clear H. destruct u. destruct w as [l' ks'].
      destruct (add_children_data _ _ _ _ _ A) as (lc & kc & A1 & A2 & A3). rewrite A2 in B. rewrite A3 in C. cbn [ids_data] in ND, NI.
      apply NoDup_app_inv in ND. destruct ND as (NDc & NDr & DIS).
      assert (NIc : forall id, In id (ids_in e0) -> ~ has_id d id) by (intros id I; apply NI, in_app_iff; auto).
      destruct (add_one fuel d e0 dA lc kc None dB ck dC (all_adds_well e0) A1 NX NDc NIc B C) as (EK & LC & FC & OC & RC & PC & XC & GC).
      pose proof (HX _ _ _ _ A1 NX NDc NIc) as G1.
      pose proof (grows_store (sh_len d) dA (e_with_data e0 lc) None) as G2. rewrite B in G2.
      assert (WK : forall j, In j kc -> sh_len d <= j).
      { destruct (all_adds_well e0 fuel d dA lc kc A1 NX NDc NIc) as [_ _ _ _ _ W1 _]. assert (KS : kc = child_keys lc) by (pose proof (add_data_keys _ _ _ _ _ A1) as K; cbn in K; apply K; inversion NX; assumption).
        intros j J. rewrite KS in J. apply (W1 j J). }
      pose proof (grows_link (sh_len d) fuel ck kc dB WK) as G3. rewrite C in G3. cbn [fst] in *.
      assert (G4 : grows (sh_len dC) dC d1).
      { apply (IHr _ _ _ D NDr). intros id I HI. destruct (GC _ HI) as [Q|Q]; [apply (NI id); [apply in_app_iff; auto|exact Q]|]. apply (DIS _ Q I). }
      eapply grows_trans; [exact G1|]. eapply grows_trans; [exact G2|]. eapply grows_trans; [exact G3|]. eapply grows_less; [|exact G4]. lia.
Qed.
Lemma grows_attach n d p c d' : parent_of d c = None -> attach_element d p c = (d', Ok tt) -> grows n d d'.
Proof.
  intros PC. unfold attach_element. destruct (get_elementdata d p); [|discriminate]. unfold parent_of in PC. destruct (get_elementdata d c) as [ce|]; [|discriminate]. cbn in PC. rewrite PC.
  intros H. injection H as <-. eapply grows_trans; [apply grows_parent|apply grows_push].
Qed.
Lemma grows_add_element_to fuel d p e d1 k : p < sh_len d -> fresh_for d e -> add_element_to fuel d p e = (d1, Ok k) -> grows (sh_len d) d d1.
Proof.
  intros PL (NE & ND & NI) H. unfold add_element_to in H. apply sbind_ok in H. destruct H as (dA & x & A & H).
  apply sbind_ok in H. destruct H as (dB & ck & B & H). apply sbind_ok in H. destruct H as (dC & u & C & H).
  apply sbind_ok in H. destruct H as (dD & v & D & H). apply sbind_ok in H. destruct H as (dE & w & E & H). inversion H; subst; clear H.
  destruct u, v. destruct (add_children_data _ _ _ _ _ A) as (lc & kc & A1 & A2 & A3). rewrite A2 in B. rewrite A3 in C.
  assert (B' : store_add dA (e_with_data e lc) (Some p) = (dB, Ok k)).
  { unfold map_err in B. destruct (store_add dA (e_with_data e lc) (Some p)) as [s [a| | |]]; try discriminate; exact B. }
  assert (NI' : forall id, In id (ids_in e) -> ~ has_id d id) by (intros id I; apply not_has_id, NI, I).
  destruct (add_one fuel d e dA lc kc (Some p) dB k dC (all_adds_well e) A1 NE ND NI' B' C) as (EK & LC & FC & OC & RC & PC & XC & GC).
  assert (KP : p <> k) by lia. rewrite sh_parent in PC.
  assert (WK : forall j, In j kc -> sh_len d <= j).
  { destruct (all_adds_well e fuel d dA lc kc A1 NE ND NI') as [_ _ _ _ _ W1 _]. assert (KS : kc = child_keys lc) by (pose proof (add_data_keys _ _ _ _ _ A1) as K; cbn in K; apply K; inversion NE; assumption).
    intros j J. rewrite KS in J. apply (W1 j J). }
  pose proof (grows_data fuel e d dA lc kc A1 NE ND NI') as G1. pose proof (grows_store (sh_len d) dA (e_with_data e lc) (Some p)) as G2. rewrite B' in G2.
  pose proof (grows_link (sh_len d) fuel k kc dB WK) as G3. rewrite C in G3. pose proof (grows_post_add (sh_len d) fuel dD k) as G5. rewrite E in G5. cbn [fst] in *.
  eapply grows_trans; [exact G1|]. eapply grows_trans; [exact G2|]. eapply grows_trans; [exact G3|]. eapply grows_trans; [eapply grows_attach; eassumption|]. apply G5. lia.
Qed.

(* ---------------------------------------------------------------- the first matching child *)
Inductive first_such (P : nat -> Prop) : list datatype -> option nat -> Prop :=
  | fs_nil : first_such P [] None
  | fs_hit x k l : item_key x = [k] -> P k -> first_such P (x :: l) (Some k)
  | fs_skip x l r : (forall k, item_key x = [k] -> ~ P k) -> first_such P l r -> first_such P (x :: l) r.
Lemma first_such_none P l : (forall x k, In x l -> item_key x = [k] -> ~ P k) -> first_such P l None.
Proof. induction l as [|x l IH]; intros H; [constructor|]. apply fs_skip; [intros k; apply H; left; reflexivity|]. apply IH. intros y k Y. apply H. right. exact Y. Qed.
Lemma first_such_det P l a b : first_such P l a -> first_such P l b -> a = b.
Proof.
  intros A. revert b. induction A as [|x k l I Q|x l r N A IH]; intros b B; inversion B as [|x' k' l' I' Q'|x' l' r' N' B']; subst; auto; [congruence|destruct (N' _ I Q)|destruct (N _ I' Q')].
Qed.
Lemma first_such_app P l m k : first_such P l (Some k) -> first_such P (l ++ m) (Some k).
Proof. intros F. remember (Some k) as o. induction F as [|x j l I Q|x l r N F IH]; [discriminate| |]; cbn. - injection Heqo as ->. apply fs_hit; assumption. - apply fs_skip; auto. Qed.
Lemma first_such_end P l x k : first_such P l None -> item_key x = [k] -> P k -> first_such P (l ++ [x]) (Some k).
Proof.
  intros F I Q. remember (@None nat) as o. induction F as [|y j l J R|y l r N F IH]; [|discriminate|].
  - apply fs_hit; assumption.
  - cbn. apply fs_skip; auto.
Qed.
Lemma first_such_ext (P Q : nat -> Prop) l r : (forall x k, In x l -> item_key x = [k] -> (P k <-> Q k)) -> first_such P l r -> first_such Q l r.
Proof.
  intros H F. induction F as [|x j l J R|x l r N F IH]; [constructor| |].
  - apply fs_hit; [exact J|]. apply (H x j); [left; reflexivity|exact J|exact R].
  - apply fs_skip; [intros k J K; apply (N k J); apply (H x k); [left; reflexivity|exact J|exact K]|]. apply IH. intros y k Y. apply H. right. exact Y.
Qed.
Lemma first_such_hit P l k : first_such P l (Some k) -> P k /\ exists x, In x l /\ item_key x = [k].
Proof.
  intros F. remember (Some k) as o. induction F as [|x j l J R|x l r N F IH]; [discriminate| |].
  - injection Heqo as ->. split; [exact R|]. exists x. split; [left; reflexivity|exact J].
  - destruct (IH Heqo) as (A & y & Y & I). split; [exact A|]. exists y. split; [right; exact Y|exact I].
Qed.
Lemma already_first k : fst (already_returned [] 0 k) = false.
Proof. unfold already_returned. rewrite Nat.eqb_refl, Nat.ltb_irrefl, Nat.sub_diag. reflexivity. Qed.
Lemma dedup_first d p x : fst (dedup d p x [] 0) = true.
Proof.
  unfold dedup. destruct (sp_spanrefs p); [|reflexivity]. destruct x as [t|k|t|k|e]; try reflexivity.
  - destruct (get_elementdata d k) as [e|]; [|reflexivity]. destruct (group_contains EG_Span (e_type e)); [|reflexivity]. pose proof (already_first k) as H. destruct (already_returned [] 0 k) as [b q]. cbn in *. subst b. reflexivity.
  - pose proof (already_first k) as H. destruct (already_returned [] 0 k) as [b q]. cbn in *. subst b. reflexivity.
Qed.
Lemma sel_first_flat d s key e : (forall x b, matches s d x = Ok b -> match x with DText _ | DComment _ | DAddElement _ => b = false | _ => True end) ->
  get_elementdata d key = Some e -> forall fuel c st r, ss_stack st = [(key, c)] -> ss_returned st = [] -> ss_offset st = 0 -> running (mkSP s RNo false true) st ->
  sel_first fuel d (mkSP s RNo false true) st = Ok r -> first_such (fun k => accepts d s (DElement k)) (skipn c (e_data e)) r.
Proof.
  intros NT G. induction fuel as [|f IH]; intros c st r S R O RU; [discriminate|]. cbn [sel_first]. rewrite (running_step _ _ _ RU). unfold sel_advance. cbn [ss_stack ss_iteration ss_returned ss_offset sp_rec sp_sel rec_eval]. rewrite S, G.
  unfold e_data_at. destruct (nth_error (e_data e) c) as [item|] eqn:N.
  - rewrite (skipn_some _ _ _ N). destruct (matches s d item) as [b| | |] eqn:M; try discriminate. destruct b.
    + rewrite R, O. pose proof (dedup_first d (mkSP s RNo false true) item) as DF. destruct (dedup d (mkSP s RNo false true) item [] 0) as [ret [ra rb]]. cbn [fst] in DF. subst ret. cbn [si_data].
      pose proof (NT _ _ M) as NTI. destruct item as [t|k|t|k|x]; try discriminate NTI; (destruct (get_elementdata d k); [|discriminate]); intros H; injection H as <-;
        apply (matches_spec s d _ true) in M; (apply fs_hit; [reflexivity|]); apply (proj1 M eq_refl).
    + intros H. apply fs_skip.
      * intros k I A. apply (matches_spec s d _ false) in M. assert (X : accepts d s item) by (destruct item; try discriminate I; injection I as ->; exact A). apply M in X. discriminate.
      * eapply IH; [| | | |exact H]; cbn; auto. left. cbn. lia.
  - rewrite (skipn_none _ _ N). destruct f as [|f]; [discriminate|]. cbn [sel_first]. rewrite running_step by (left; cbn; lia). unfold sel_advance. cbn. intros H. injection H as <-. constructor.
Qed.
