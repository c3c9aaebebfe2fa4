(* Adding elements does not panic: the facts behind C16 *)
From Coq Require Import String List Bool Arith NArith Lia.
From Verif Require Import Base Types SpecTable Attrib Element Store Metadata Document Select DocOps Xml Parser History BaseFacts TypesFacts StoreFacts Spec
  FrameFacts InvFacts DocFacts StoreThms InternFacts EncodeFacts LinkFacts TreeFacts SelSpec SelectFacts PropsEncode PropsSelect.
Import ListNotations.
Open Scope list_scope.

Definition has (d : document) (k : nat) : Prop := get_elementdata d k <> None.
(* the parent and the child elements an element refers to are in the document *)
Definition links_resolve (d : document) : Prop := forall k e, get_elementdata d k = Some e ->
  (forall p, e_parent e = Some p -> has d p) /\ (forall c, In (DElement c) (e_data e) -> has d c).
Lemma consistent_resolves d : consistent d -> links_resolve d.
Proof.
  intros C k e G. split.
  - intros p P. eapply parent_exists; [exact C|]. unfold parent_of. rewrite G. exact P.
  - intros c I. eapply (listed_exists d k); [exact C|]. unfold children_of. rewrite G. apply in_child_keys, I.
Qed.

Definition safe (d : document) : Prop := full_ok d /\ links_resolve d.
Definition good {A} (d : document) (r : document * res A) : Prop :=
  safe (fst r) /\ (forall k, has d k -> has (fst r) k) /\ snd r <> Panic.
Lemma good_bind {A B} d (r : document * res A) (f : document -> A -> document * res B) : good d r ->
  (forall d1 a, r = (d1, Ok a) -> safe d1 -> (forall k, has d k -> has d1 k) -> good d1 (f d1 a)) -> good d (sbind r f).
Proof.
  intros (S & M & N) H. destruct r as [d1 [a|x| |]]; cbn [sbind fst snd] in *.
  - destruct (H d1 a eq_refl S M) as (S2 & M2 & N2). split; [exact S2|]. split; [auto|exact N2].
  - split; [exact S|]. split; [exact M|discriminate].
  - congruence.
  - split; [exact S|]. split; [exact M|discriminate].
Qed.
Lemma good_pure {A B} d (r : res A) (f : document -> A -> document * res B) : safe d -> r <> Panic ->
  (forall a, r = Ok a -> good d (f d a)) -> good d (let! d1, x := (d, r) in f d1 x).
Proof. intros S N H. apply good_bind; [split; [exact S|split; [auto|exact N]]|]. intros d1 a E _ _. inversion E; subst. apply H. reflexivity. Qed.
Lemma good_ret {A} d (a : res A) : safe d -> a <> Panic -> good d (d, a).
Proof. intros S N. split; [exact S|]. split; [auto|exact N]. Qed.
Lemma rbind_np {A B} (r : res A) (f : A -> res B) : r <> Panic -> (forall a, r = Ok a -> f a <> Panic) -> rbind r f <> Panic.
Proof. destruct r; cbn; auto; discriminate. Qed.
Lemma unwrap_np {A} (r : res A) : (exists a, r = Ok a) -> unwrap r <> Panic.
Proof. intros (a & ->). discriminate. Qed.
Lemma expect_np {A} (o : option A) : o <> None -> expect o <> Panic.
Proof. destruct o; [discriminate|congruence]. Qed.

Lemma normal_decl t s a f : g_decl normal (d_new t s a f).
Proof. repeat split. Qed.
Lemma has_le a b k : doc_le a b -> has a k -> has b k.
Proof. unfold has. intros L H. destruct (get_elementdata a k) as [e|] eqn:G; [|congruence]. destruct (doc_le_elem _ _ _ _ L G) as (e' & -> & _). discriminate. Qed.
Lemma has_prims a b k : prims normal a b -> has a k -> has b k.
Proof. intros P. apply has_le. eapply prims_le; [exact normal_decl|exact P]. Qed.
Lemma full_prims0 a b : prims0 normal a b -> full_ok a -> full_ok b.
Proof. intros P. apply full_prims, lift, P. Qed.
Lemma has_prims0 a b k : prims0 normal a b -> has a k -> has b k.
Proof. intros P. apply has_prims, lift, P. Qed.

(* ---------------------------------------------------------------- selections *)
Lemma full_matches d s x : full_ok d -> exists b, matches s d x = Ok b.
Proof.
  intros (_ & _ & _ & EO). induction s as [s IH] using selector_ind'. rewrite matches_eq.
  assert (T : exists b, this_matches s d x = Ok b).
  { unfold this_matches. destruct x as [t|k|t|k|e]; eauto; (destruct (negb _ && negb _); [eauto|]); (destruct (get_elementdata d k) as [e|] eqn:G; [|eauto]);
    destruct (EO _ _ G) as (p & n & A & F & RO);
    rewrite (rep_annotator d e p n A F), (rep_annotatortype d e p n A F), (rep_class_key e p n A F), (rep_subset_key e p n A F), (rep_dec e p n A F), (rep_proc_key e p n A F);
    repeat (apply rand_ok); eauto using crit_ok. }
  destruct (s_next s) as [n|]; [|exact T]. apply ror_ok; [exact T|]. apply IH. reflexivity.
Qed.
Lemma full_dec_key d k e : full_ok d -> get_elementdata d k = Some e -> exists o, r_declaration_key e = Ok o.
Proof. intros (_ & _ & _ & EO) G. destruct (EO _ _ G) as (p & n & A & F & _). rewrite (rep_dec e p n A F). eauto. Qed.
Lemma full_key d k e : full_ok d -> get_elementdata d k = Some e -> e_key e = Some k.
Proof. intros ((((_ & K & _) & _) & _) & _) G. apply K, G. Qed.
Lemma accepted_has d s k x : matches s d x = Ok true -> item_key x = [k] -> has d k.
Proof.
  intros M I. apply matches_spec in M. destruct M as (M & _). destruct (M eq_refl) as (a & _ & Q).
  destruct x as [t|j|t|j|e]; try discriminate I; inversion I; subst; destruct Q as (_ & e & G & _); unfold has; rewrite G; discriminate.
Qed.
Lemma anc_next_np fuel d s : safe d -> forall k, anc_next fuel d s k <> Panic.
Proof.
  intros (F & L). induction fuel as [|fuel IH]; intros k; cbn [anc_next]; [discriminate|].
  destruct (get_elementdata d k) as [e|] eqn:G; [|discriminate]. destruct (e_parent e) as [p|] eqn:P; [|discriminate].
  pose proof (proj1 (L _ _ G) _ P) as HP. unfold has in HP.
  destruct (full_matches d s (DElement p) F) as (b & ->). destruct (get_elementdata d p); [|congruence]. destruct b; [discriminate|apply IH].
Qed.
Lemma anc_next_has fuel d s : forall k a, anc_next fuel d s k = Ok (Some a) -> has d a.
Proof.
  induction fuel as [|fuel IH]; intros k a; cbn [anc_next]; [discriminate|].
  destruct (get_elementdata d k) as [e|]; [|discriminate]. destruct (e_parent e) as [p|]; [|discriminate].
  destruct (matches s d (DElement p)) as [[]| | |]; try discriminate; destruct (get_elementdata d p) eqn:G; try discriminate; [|apply IH].
  intros H. inversion H; subst. unfold has. rewrite G. discriminate.
Qed.
Lemma ancestors_np fuel d s : safe d -> forall k, ancestors fuel d s k <> Panic.
Proof.
  intros (F & L). induction fuel as [|fuel IH]; intros k; cbn [ancestors]; [discriminate|].
  destruct (get_elementdata d k) as [e|] eqn:G; [|discriminate]. destruct (e_parent e) as [p|] eqn:P; [|discriminate].
  pose proof (proj1 (L _ _ G) _ P) as HP. unfold has in HP.
  destruct (full_matches d s (DElement p) F) as (b & ->). destruct (get_elementdata d p); [|congruence]. destruct b; [|apply IH].
  apply rbind_np; [apply IH|]. discriminate.
Qed.
Lemma ancestors_has fuel d s : forall k l, ancestors fuel d s k = Ok l -> forall a, In a l -> has d a.
Proof.
  induction fuel as [|fuel IH]; intros k l; cbn [ancestors]; [discriminate|].
  destruct (get_elementdata d k) as [e|]; [|intros H; inversion H; intros ? []]. destruct (e_parent e) as [p|]; [|intros H; inversion H; intros ? []].
  destruct (matches s d (DElement p)) as [[]| | |]; try discriminate; destruct (get_elementdata d p) eqn:G; try discriminate; [|apply IH].
  intros H. apply rbind_ok in H. destruct H as (m & M & H). inversion H; subst. intros a [->|I]; [unfold has; rewrite G; discriminate|eapply IH; eassumption].
Qed.
Lemma key_of_ok d k : full_ok d -> has d k -> key_of d k = Ok k.
Proof. unfold has, key_of. intros F H. destruct (get_elementdata d k) as [e|] eqn:G; [|congruence]. rewrite (full_key _ _ _ F G). reflexivity. Qed.
Lemma keys_of_has d l : full_ok d -> (forall k, In k l -> has d k) -> keys_of d l = Ok l.
Proof.
  intros F. induction l as [|k l IH]; intros H; [reflexivity|]. cbn [keys_of]. rewrite (key_of_ok d k F (H k (or_introl eq_refl))). cbn [rbind].
  rewrite IH; [reflexivity|]. intros j J. apply H. right; exact J.
Qed.

(* the elements on the stack of a running selection exist *)
Definition on_stack (d : document) (st : selstate) : Prop := forall k c, In (k, c) (ss_stack st) -> has d k.
Lemma advance_np d p st : safe d -> on_stack d st ->
  match sel_advance d p st with
  | Yield i st' => on_stack d st' /\ forall k, item_key (si_data i) = [k] -> has d k
  | Again st' | Stop st' => on_stack d st'
  | StepPanic => False
  end.
Proof.
  intros (F & L) OS. unfold sel_advance. destruct (ss_stack st) as [|(key, cursor) rest] eqn:E; [exact OS|].
  assert (HK : has d key) by (eapply OS; rewrite E; left; reflexivity).
  assert (HR : forall k c, In (k, c) rest -> has d k) by (intros k c I; eapply OS; rewrite E; right; exact I).
  pose proof HK as HK'. unfold has in HK'. destruct (get_elementdata d key) as [e|] eqn:G; [|congruence].
  destruct (e_data_at e cursor) as [x|] eqn:X; [|exact HR].
  assert (HS : forall k c, In (k, c) (if rec_eval (sp_rec p) (e_type e) then match x with DElement k0 => (k0, 0) :: (key, S cursor) :: rest | _ => (key, S cursor) :: rest end
    else (key, S cursor) :: rest) -> has d k).
  { assert (H1 : forall k c, In (k, c) ((key, S cursor) :: rest) -> has d k) by (intros k c [Q|Q]; [inversion Q; subst; exact HK|eapply HR, Q]).
    destruct (rec_eval _ _); [|exact H1]. destruct x; try exact H1. intros k0 c [Q|Q]; [|eapply H1, Q]. inversion Q; subst.
    apply (proj2 (L _ _ G)). unfold e_data_at in X. eapply nth_error_In, X. }
  destruct (full_matches d (sp_sel p) x F) as (b & M). cbv zeta. rewrite M. destruct b; [|exact HS].
  destruct (dedup d p x (ss_returned st) (ss_offset st)) as [ret [returned offset]]. destruct ret; [|exact HS].
  split; [exact HS|]. intros k I. eapply accepted_has; [exact M|exact I].
Qed.
Lemma step_np d p st : safe d -> sp_inclusive p = false -> on_stack d st ->
  match sel_step d p st with
  | Yield i st' => on_stack d st' /\ forall k, item_key (si_data i) = [k] -> has d k
  | Again st' | Stop st' => on_stack d st'
  | StepPanic => False
  end.
Proof.
  intros S I O. unfold sel_step. rewrite I. cbn [andb].
  destruct (_ && _); [exact O|]. apply advance_np; [exact S|exact O].
Qed.
Lemma init_on_stack d k : has d k -> on_stack d (sel_init k).
Proof. intros H j c [Q|[]]. inversion Q; subst; exact H. Qed.
Lemma sel_find_np d p f : safe d -> sp_inclusive p = false -> (forall k e, get_elementdata d k = Some e -> f k e <> Panic) ->
  forall fuel st, on_stack d st -> sel_find fuel d p st f <> Panic.
Proof.
  intros S I FN. induction fuel as [|fuel IH]; intros st O; cbn [sel_find]; [discriminate|].
  pose proof (step_np d p st S I O) as T. destruct (sel_step d p st) as [i st'|st'|st'|]; [|apply IH, T|discriminate|contradiction].
  destruct T as (T & H). destruct (si_data i) as [t|k|t|k|e]; try (apply IH, T);
    (specialize (H k eq_refl); unfold has in H; destruct (get_elementdata d k) as [e|] eqn:G; [|congruence]);
    (apply rbind_np; [eapply FN, G|]; intros [x|] _; [discriminate|apply IH, T]).
Qed.
Lemma sel_first_np d p : safe d -> sp_inclusive p = false -> forall fuel st, on_stack d st -> sel_first fuel d p st <> Panic.
Proof.
  intros S I. induction fuel as [|fuel IH]; intros st O; cbn [sel_first]; [discriminate|].
  pose proof (step_np d p st S I O) as T. destruct (sel_step d p st) as [i st'|st'|st'|]; [|apply IH, T|discriminate|contradiction].
  destruct T as (T & H). destruct (si_data i) as [t|k|t|k|e]; try (apply IH, T);
    (specialize (H k eq_refl); unfold has in H; destruct (get_elementdata d k) as [e|] eqn:G; [discriminate|congruence]).
Qed.

(* ---------------------------------------------------------------- changes of one element *)
Lemma has_upd d k f j : has d j -> has (upd_element d k f) j.
Proof. unfold has. rewrite get_upd_element. destruct (Nat.eqb_spec j k) as [->|N]; [|auto]. destruct (get_elementdata d k); [discriminate|auto]. Qed.
Lemma resolve_upd d k f : links_resolve d ->
  (forall e, get_elementdata d k = Some e -> (forall p, e_parent (f e) = Some p -> has d p) /\ (forall c, In (DElement c) (e_data (f e)) -> has d c)) ->
  links_resolve (upd_element d k f).
Proof.
  intros L H j e. rewrite get_upd_element. assert (Q : forall e, (forall p, e_parent e = Some p -> has d p) /\ (forall c, In (DElement c) (e_data e) -> has d c) ->
    (forall p, e_parent e = Some p -> has (upd_element d k f) p) /\ (forall c, In (DElement c) (e_data e) -> has (upd_element d k f) c)).
  { intros x (A & B). split; intros y Y; apply has_upd; auto. }
  destruct (Nat.eqb_spec j k) as [->|N].
  - destruct (get_elementdata d k) as [x|] eqn:G; [|discriminate]. cbn. intros E. inversion E; subst. apply Q, H. reflexivity.
  - intros G. apply Q, (L _ _ G).
Qed.
Lemma safe_parent d k p : safe d -> has d p -> safe (upd_element d k (e_set_parent (Some p))).
Proof.
  intros (F & L) H. split; [eapply full_prims0; [apply upd_parent_p0|exact F]|]. apply resolve_upd; [exact L|].
  intros e G. destruct e as [ty a l key par]. cbn. split; [intros q Q; inversion Q; subst; exact H|]. apply (L _ _ G).
Qed.
Lemma safe_push d k x : safe d -> is_add x = false -> (forall c, x = DElement c -> has d c) -> safe (upd_element d k (fun e => e_push e x)).
Proof.
  intros (F & L) N H. split; [eapply full_prims0; [apply upd_push_p0, N|exact F]|]. apply resolve_upd; [exact L|].
  intros e G. destruct e as [ty a l key par]. cbn. split; [apply (L _ _ G)|]. intros c I. apply in_app_or in I. destruct I as [I|[I|[]]]; [apply (L _ _ G), I|auto].
Qed.
Lemma remove_nth_in {A} (l : list A) : forall n x, In x (remove_nth n l) -> In x l.
Proof. induction l as [|a l IH]; intros [|n] x; cbn; auto. intros [->|I]; [auto|right; eapply IH, I]. Qed.
Lemma safe_unlist d k c : safe d -> safe (upd_element d k (e_unlist c)).
Proof.
  intros (F & L). split; [eapply full_prims0; [apply upd_unlist_p0|exact F]|]. apply resolve_upd; [exact L|].
  intros e G. destruct (e_unlist_rest c e) as (_ & _ & _ & ->). split; [apply (L _ _ G)|]. intros x I. apply (proj2 (L _ _ G)).
  unfold e_unlist in I. destruct (e_index e c) as [i|]; [|exact I]. destruct e as [ty a l key par]. cbn in *. eapply remove_nth_in, I.
Qed.
Lemma good_attach d p c : safe d -> good d (attach_element d p c).
Proof.
  intros S. unfold attach_element. destruct (get_elementdata d p) as [pe|] eqn:GP; [|apply good_ret; [exact S|discriminate]].
  destruct (get_elementdata d c) as [ce|] eqn:GC; [|apply good_ret; [exact S|discriminate]].
  assert (HP : has d p) by (unfold has; rewrite GP; discriminate). assert (HC : has d c) by (unfold has; rewrite GC; discriminate).
  pose proof (safe_parent d c p S HP) as S1.
  assert (S2 : safe (upd_element (upd_element d c (e_set_parent (Some p))) p (fun e => e_push e (DElement c)))).
  { apply safe_push; [exact S1|reflexivity|]. intros x E. inversion E; subst. apply has_upd, HC. }
  cbv zeta. destruct (e_parent ce) as [o|].
  - split; [apply safe_unlist, S2|]. split; [|discriminate]. intros k K. cbn [fst]. repeat apply has_upd. exact K.
  - split; [exact S2|]. split; [|discriminate]. intros k K. cbn [fst]. repeat apply has_upd. exact K.
Qed.

(* ---------------------------------------------------------------- post_add *)
Lemma key_by_id_np d id : full_ok d -> key_by_id d id <> Panic.
Proof.
  intros ((((_ & _ & IX & _) & _) & _) & _). unfold key_by_id. destruct (get_element_key_by_id d id) as [k|] eqn:K; [|discriminate].
  unfold get_element_key_by_id, st_id_to_key in K. destruct (get_elementdata d k) eqn:G; [discriminate|].
  exfalso. destruct (IX _ _ K) as (x & X & _). unfold get_elementdata in G. congruence.
Qed.
Lemma first_match_np d s l : full_ok d -> first_match d s l <> Panic.
Proof.
  intros F. induction l as [|k l IH]; cbn [first_match]; [discriminate|]. destruct (full_matches d s (DElement k) F) as (b & ->). cbn [rbind].
  destruct b; [discriminate|exact IH].
Qed.
Lemma layer_selector d : exists s, from_query d layer_query = Ok s.
Proof. eexists. reflexivity. Qed.
Lemma layer_declaration_np fuel d k e : safe d -> get_elementdata d k = Some e -> layer_declaration fuel d e <> Panic.
Proof.
  intros S G. unfold layer_declaration. destruct (layer_selector d) as (s & ->). cbn [rbind]. rewrite (full_key _ _ _ (proj1 S) G). cbn [expect rbind].
  apply sel_find_np; [exact S|reflexivity| |apply init_on_stack; unfold has; rewrite G; discriminate].
  intros j x X. destruct (at_opt_eqb _ _); [|discriminate]. destruct (full_dec_key _ _ _ (proj1 S) X) as (o & ->). discriminate.
Qed.
Lemma good_post_add fuel d k st : safe d -> good d (post_add fuel d k st).
Proof.
  intros S. assert (NP : snd (post_add fuel d k st) <> Panic /\ links_resolve (fst (post_add fuel d k st))).
  { unfold post_add. destruct (get_elementdata d k) as [e|] eqn:G; [|split; [discriminate|apply S]].
    assert (LY : snd (if group_contains EG_Layer (e_type e) && negb (e_has_attrib e AB_SET)
             then let! d0, dk := (d, layer_declaration fuel d e) in
                  match dk with
                  | Some dk0 => (upd_element d0 k (fun x => e_with_attribs x [A_DeclarationRef dk0]), Ok tt)
                  | None => (d0, Ok tt)
                  end
             else (d, Ok tt)) <> Panic /\ links_resolve (fst (if group_contains EG_Layer (e_type e) && negb (e_has_attrib e AB_SET)
             then let! d0, dk := (d, layer_declaration fuel d e) in
                  match dk with
                  | Some dk0 => (upd_element d0 k (fun x => e_with_attribs x [A_DeclarationRef dk0]), Ok tt)
                  | None => (d0, Ok tt)
                  end
             else (d, Ok tt)))).
    { destruct (_ && _); [|split; [discriminate|apply S]]. pose proof (layer_declaration_np fuel d k e S G) as N.
      destruct (layer_declaration fuel d e) as [[dk|]| | |]; cbn [sbind fst snd]; try congruence; (split; [try discriminate|try apply S]).
      apply resolve_upd; [apply S|]. intros x X. destruct x as [ty a l key par]. apply (proj2 S _ _ X). }
    destruct (e_type e) eqn:T; try exact LY. unfold post_add_wref. destruct (attribs_last_idref (e_attribs e) None) as [id|]; [|split; [discriminate|apply S]].
    match goal with |- context [sbind (d, ?r) _] => assert (N : r <> Panic) end.
    { destruct st as [st|]; [apply first_match_np, S|]. apply rbind_np; [apply anc_next_np, S|]. intros [a|] A; [|discriminate].
      rewrite (key_of_ok d a (proj1 S) (anc_next_has _ _ _ _ _ A)). discriminate. }
    match goal with |- context [sbind (d, ?r) _] => destruct r as [[sk|]| | |] end; cbn [sbind]; try congruence; try (split; [discriminate|apply S]).
    pose proof (key_by_id_np d id (proj1 S)) as N2. destruct (key_by_id d id) as [[tk|]| | |]; cbn [sbind]; try congruence; try (split; [discriminate|apply S]).
    cbn [fst snd]. split; [discriminate|]. apply safe_push; [exact S|reflexivity|discriminate]. }
  destruct NP as (N & L). split; [split; [eapply full_prims0; [apply post_add_p0|apply S]|exact L]|]. split; [|exact N].
  intros j. apply has_prims0, post_add_p0.
Qed.
Lemma good_link_children fuel p ks : forall d, safe d -> has d p -> good d (link_children fuel d p ks).
Proof.
  induction ks as [|k ks IH]; intros d S H; cbn [link_children]; [apply good_ret; [exact S|discriminate]|]. cbv zeta.
  pose proof (safe_parent d k p S H) as S1. assert (M1 : forall j, has d j -> has (upd_element d k (e_set_parent (Some p))) j) by (intros j; apply has_upd).
  assert (Q : good (upd_element d k (e_set_parent (Some p))) (let! d2, _ := post_add fuel (upd_element d k (e_set_parent (Some p))) k None in link_children fuel d2 p ks)).
  { apply good_bind; [apply good_post_add, S1|]. intros d2 u _ S2 M2. apply IH; [exact S2|]. apply M2, M1, H. }
  destruct Q as (Q1 & Q2 & Q3). split; [exact Q1|]. split; [auto|exact Q3].
Qed.

(* ---------------------------------------------------------------- encode and the store *)
Lemma declare_np d t s a f : snd (declare d t s a f) <> Panic.
Proof.
  unfold declare. destruct (get_declaration_key_by_id d (index_id t s)); [discriminate|]. cbv zeta.
  match goal with |- snd (sbind (match ?x with _ => _ end) _) <> _ => destruct x end; cbn [sbind snd]; [discriminate|].
  unfold add_declaration, st_add. destruct (st_get_key _ _ _); cbn [sbind snd]; [discriminate|]. destruct (_ <=? _)%N; cbn [sbind snd]; discriminate.
Qed.
(* A feature can be added if it goes to an element whose annotation type is known. *)
Definition feature_fits (d : document) (e : elementdata) (ctx : option nat) : Prop :=
  e_type e = ET_Feature -> forall p pe, ctx = Some p -> get_elementdata d p = Some pe -> et_annotationtype (e_type pe) <> None.
Lemma sbind_np {S A B} (r : S * res A) (f : S -> A -> S * res B) : snd r <> Panic -> (forall s a, r = (s, Ok a) -> snd (f s a) <> Panic) -> snd (sbind r f) <> Panic.
Proof. destruct r as [s [a|x| |]]; cbn; auto; discriminate. Qed.
Lemma encode_refs_np d e ctx : textual (e_attribs e) -> feature_fits d e ctx -> snd (encode_refs d e ctx) <> Panic.
Proof.
  intros T FF. assert (ES : e_set e = Ok (first_pick pick_set (e_attribs e))) by (apply scan_decoded_textual, T).
  unfold encode_refs. destruct (et_annotationtype (e_type e)) as [t|] eqn:AT.
  - rewrite ES. cbn [unwrap sbind]. apply sbind_np; [apply declare_np|]. intros d1 dk _. destruct (intern_opt _ _ _ _) as [d2 ck].
    destruct (get_declaration d2 dk) as [dec|]; [|discriminate]. destruct (d_default_processor dec); [discriminate|]. destruct (doc_active d2); discriminate.
  - unfold feature_fits in FF. destruct (e_type e) eqn:TY; try discriminate. destruct ctx as [pk|]; [|discriminate].
    apply sbind_np; [destruct (get_elementdata d pk); discriminate|]. intros d1 parent E. inversion E; subst. 
    destruct (get_elementdata d1 pk) as [pe|] eqn:G; [|discriminate]. cbn in H1. inversion H1; subst.
    apply sbind_np; [apply expect_np; eapply FF; eauto|]. intros d2 t E2. inversion E2; subst.
    rewrite ES. cbn [unwrap sbind]. apply sbind_np; [apply declare_np|]. intros d3 dk _. destruct (intern_opt _ _ _ _) as [d4 ck]. destruct (intern_opt _ _ _ _) as [d5 sk].
    discriminate.
Qed.
Lemma encode_np d e ctx : textual (e_attribs e) -> feature_fits d e ctx -> snd (encode d e ctx) <> Panic.
Proof.
  intros T FF. unfold encode. destruct (negb (e_encodable e)); [discriminate|]. apply sbind_np; [apply encode_refs_np; assumption|]. discriminate.
Qed.
Lemma store_add_has d e ctx d1 k : full_ok d -> store_add d e ctx = (d1, Ok k) -> has d1 k.
Proof.
  intros ((((_ & _ & IX & _) & _) & _) & _) H. pose proof (store_add_cases d e ctx) as C. rewrite H in C. cbn [fst snd] in C.
  pose proof (encode_elements d e ctx) as EE. unfold has, get_elementdata.
  inversion C as [d' e1 id k' E I J|d' e1 s E N' B IT IX'|d' e1 E N' B|d' r E NR Q R1]; subst.
  - rewrite E in EE. cbn [fst] in EE. rewrite EE. unfold get_element_key_by_id, st_id_to_key in J. destruct (IX _ _ J) as (x & X & _). congruence.
  - docs_g. rewrite (st_get_snoc _ _ _ _ IT), Nat.eqb_refl. discriminate.
  - destruct r; discriminate || (exfalso; eapply NR; reflexivity).
Qed.
Lemma good_store_add d e ctx : safe d -> textual (e_attribs e) -> feature_fits d e ctx ->
  (forall p, e_parent e = Some p -> has d p) -> (forall c, In (DElement c) (e_data e) -> has d c) -> good d (store_add d e ctx).
Proof.
  intros (F & L) T FF HP HC. pose proof (store_add_prims normal d e ctx T) as PR.
  assert (M : forall k, has d k -> has (fst (store_add d e ctx)) k) by (intros k; apply has_prims, PR).
  split; [split; [eapply full_prims; [exact PR|exact F]|]|split; [exact M|]].
  - pose proof (store_add_cases d e ctx) as C. pose proof (encode_elements d e ctx) as EE. pose proof (encode_value d e ctx) as EV. revert M C. generalize (fst (store_add d e ctx)) (snd (store_add d e ctx)).
    intros d2 r M C.
    assert (OLD : forall x, (forall p, e_parent x = Some p -> has d p) /\ (forall c, In (DElement c) (e_data x) -> has d c) ->
      (forall p, e_parent x = Some p -> has d2 p) /\ (forall c, In (DElement c) (e_data x) -> has d2 c)) by (intros x (A & B); split; auto).
    destruct C as [d1 e1 id k E I J|d1 e1 s E N' B IT IX|d1 e1 E N' B|d1 r E NR]; rewrite E in EE; cbn [fst] in EE; intros j x; unfold get_elementdata; docs_g; rewrite ?EE.
    + intros G. apply OLD, (L _ _ G).
    + rewrite (st_get_snoc _ _ _ _ IT). destruct (Nat.eqb_spec j (st_len (doc_elements d))) as [->|N].
      * intros Q. inversion Q; subst. apply OLD. destruct (EV _ _ E) as (V1 & V2 & V3 & V4 & V5). destruct e1 as [ty a l key par]. cbn in *. subst. auto.
      * intros G. apply OLD, (L _ _ G).
    + intros G. apply OLD, (L _ _ G).
    + intros G. apply OLD, (L _ _ G).
  - unfold store_add. apply sbind_np; [destruct (e_encodable e); [apply encode_np; assumption|discriminate]|].
    intros d1 e1 _. unfold st_add. destruct (st_get_key _ _ _); cbn [snd]; [discriminate|]. destruct (_ <=? _)%N; discriminate.
Qed.

(* ---------------------------------------------------------------- adding elements *)
Definition adds_safely (e : elementdata) : Prop := built e -> new_element e -> forall fuel d, safe d ->
  good d (add_data fuel d (e_data e)) /\ forall d1 x, add_data fuel d (e_data e) = (d1, Ok x) -> forall c, In (DElement c) (fst x) -> has d1 c.
Lemma feature_fits_none d e : feature_fits d e None.
Proof. intros _ p pe H. discriminate. Qed.
Lemma add_data_safely e : adds_safely e.
Proof.
  induction e as [e IH] using elem_ind. intros B N fuel. inversion B as [e' _ BS]; subst. inversion N as [e' _ N1 _ NS]; subst. clear B N.
  induction IH as [|x l Hx Hl IHl]; intros d S; cbn [add_data].
  { split; [apply good_ret; [exact S|discriminate]|]. intros d1 y H. inversion H; subst. intros c []. }
  assert (IHl' : forall d, safe d -> good d (add_data fuel d l) /\ forall d1 x, add_data fuel d l = (d1, Ok x) -> forall c, In (DElement c) (fst x) -> has d1 c).
  { apply IHl; [intros c C; apply BS; right; exact C|intros k K; apply (N1 k); right; exact K|intros c C; apply NS; right; exact C]. }
  clear IHl.
  assert (KEEP : forall mk : datatype, (forall c, mk <> DElement c) ->
    good d (let! d1, y := add_data fuel d l in (d1, Ok (mk :: fst y, snd y))) /\
    forall d1 x, (let! d1, y := add_data fuel d l in (d1, Ok (mk :: fst y, snd y))) = (d1, Ok x) -> forall c, In (DElement c) (fst x) -> has d1 c).
  { intros mk NE. destruct (IHl' d S) as (G & HA). split.
    - apply good_bind; [exact G|]. intros d1 y _ S1 _. apply good_ret; [exact S1|discriminate].
    - intros d1 y H. apply sbind_ok in H. destruct H as (s & z & Z & H). inversion H; subst. cbn [fst]. intros c [Q|Q]; [exfalso; eapply NE, Q|eapply HA; eassumption]. }
  destruct x as [s|k|s|k|c]; try (apply KEEP; discriminate).
  - exfalso. eapply N1. left; reflexivity.
  - assert (BC : built c) by (apply BS; left; reflexivity). assert (NC : new_element c) by (apply NS; left; reflexivity).
    cbn in Hx. specialize (Hx BC NC fuel).
    assert (AC : forall d, safe d -> good d (add_children fuel d c) /\ forall d1 x, add_children fuel d c = (d1, Ok x) ->
      (forall p, e_parent (fst x) = Some p -> has d1 p) /\ forall k, In (DElement k) (e_data (fst x)) -> has d1 k).
    { intros d0 S0. destruct (Hx d0 S0) as (G & HA). rewrite add_children_eq. inversion NC as [c' NP NK _ _]; subst.
      destruct (existsb is_add (e_data c)).
      - split; [apply good_bind; [exact G|]; intros d1 y _ S1 _; apply good_ret; [exact S1|discriminate]|].
        intros d1 y H. apply sbind_ok in H. destruct H as (s & z & Z & H). inversion H; subst. cbn [fst e_parent e_data e_with_data].
        split; [intros p P; destruct c; cbn in *; congruence|]. destruct c; cbn in *; eauto.
      - split; [apply good_ret; [exact S0|discriminate]|]. intros d1 y H. inversion H; subst. cbn [fst]. split; [intros p P; congruence|].
        intros k K. exfalso. eapply NK, K. }
    assert (G1 : forall d1 y, add_children fuel d c = (d1, Ok y) -> safe d1 -> good d1 (store_add d1 (fst y) None)).
    { intros d1 y H1 S1. destruct (proj2 (AC d S) _ _ H1) as (P1 & P2).
      apply good_store_add; auto using feature_fits_none. eapply (shape_guard (fun _ l => textual l)); [exact H1|]. inversion BC; assumption. }
    split.
    + apply good_bind; [apply (AC d S)|]. intros d1 y H1 S1 M1. apply good_bind; [apply G1; assumption|]. intros d2 ck H2 S2 M2.
      apply good_bind; [apply good_link_children; [exact S2|eapply store_add_has; [apply S1|exact H2]]|]. intros d3 u H3 S3 M3.
      apply good_bind; [apply IHl', S3|]. intros d4 z H4 S4 _. apply good_ret; [exact S4|discriminate].
    + intros d1 y H. apply sbind_ok in H. destruct H as (d2 & z & H1 & H). apply sbind_ok in H. destruct H as (d3 & ck & H2 & H).
      apply sbind_ok in H. destruct H as (d4 & u & H3 & H). apply sbind_ok in H. destruct H as (d5 & w & H4 & H). inversion H; subst. cbn [fst].
      destruct (AC d S) as ((S2 & _) & _). rewrite H1 in S2. cbn [fst] in S2.
      pose proof (G1 _ _ H1 S2) as (S3 & _). rewrite H2 in S3. cbn [fst] in S3.
      assert (K : has d3 ck) by (eapply store_add_has; [apply S2|exact H2]).
      destruct (good_link_children fuel ck (opt_list (snd z)) d3 S3 K) as (S4 & M4 & _). rewrite H3 in S4, M4. cbn [fst] in S4, M4.
      destruct (IHl' d4 S4) as ((S5 & M5 & _) & HA). rewrite H4 in S5, M5. cbn [fst] in S5, M5.
      intros x [Q|Q]; [inversion Q; subst; auto|eapply HA; eassumption].
Qed.
Lemma good_add_children fuel d e : safe d -> built e -> new_element e -> good d (add_children fuel d e) /\
  forall d1 x, add_children fuel d e = (d1, Ok x) -> e_type (fst x) = e_type e /\ textual (e_attribs (fst x)) /\
    (forall p, e_parent (fst x) = Some p -> has d1 p) /\ forall k, In (DElement k) (e_data (fst x)) -> has d1 k.
Proof.
  intros S B N. destruct (add_data_safely e B N fuel d S) as (G & HA). inversion N as [e' NP NK _ _]; subst. inversion B as [e' TX _]; subst. rewrite add_children_eq.
  destruct (existsb is_add (e_data e)).
  - split; [apply good_bind; [exact G|]; intros d1 y _ S1 _; apply good_ret; [exact S1|discriminate]|].
    intros d1 y H. apply sbind_ok in H. destruct H as (s & z & Z & H). inversion H; subst. destruct e as [ty a l key par]. cbn in *.
    split; [reflexivity|]. split; [exact TX|]. split; [intros p P; congruence|]. eauto.
  - split; [apply good_ret; [exact S|discriminate]|]. intros d1 y H. inversion H; subst. cbn [fst]. split; [reflexivity|]. split; [exact TX|]. split; [intros p P; congruence|].
    intros k K. exfalso. eapply NK, K.
Qed.
Lemma good_add_element fuel d e : safe d -> built e -> new_element e -> good d (add_element fuel d e).
Proof.
  intros S B N. destruct (good_add_children fuel d e S B N) as (G & H). unfold add_element. apply good_bind; [exact G|].
  intros d1 x X S1 _. destruct (H _ _ X) as (_ & T & P & K). apply good_store_add; auto using feature_fits_none.
Qed.
Lemma type_kept fuel d e p pe d1 x : built e -> add_children fuel d e = (d1, Ok x) -> get_elementdata d p = Some pe -> exists pe', get_elementdata d1 p = Some pe' /\ e_type pe' = e_type pe.
Proof.
  intros B H G. assert (P : prims normal d d1).
  { replace d1 with (fst (add_children fuel d e)) by (rewrite H; reflexivity). apply add_children_prims, B. }
  apply (prims_le _ _ _ normal_decl) in P. destruct (doc_le_elem _ _ _ _ P G) as (pe' & G' & K). exists pe'. split; [exact G'|]. destruct K as [K _ _]. exact K.
Qed.
Lemma map_err_good {A} d e (r : document * res A) : good d r -> good d (map_err e r).
Proof. destruct r as [d1 [a|x| |]]; cbn; auto. intros (S & M & _). split; [exact S|]. split; [exact M|discriminate]. Qed.
Lemma good_add_element_to fuel d p e : safe d -> built e -> new_element e -> (e_type e = ET_Feature -> exists pe, get_elementdata d p = Some pe /\ et_annotationtype (e_type pe) <> None) -> good d (add_element_to fuel d p e).
Proof.
  intros S B N FF. destruct (good_add_children fuel d e S B N) as (G & H). unfold add_element_to. apply good_bind; [exact G|].
  intros d1 x X S1 M1. destruct (H _ _ X) as (TY & T & P & K).
  assert (FF1 : feature_fits d1 (fst x) (Some p)).
  { intros TF q pe Q GQ. inversion Q; subst q. rewrite TY in TF. destruct (FF TF) as (pe0 & GP & NP).
    destruct (type_kept _ _ _ _ _ _ _ B X GP) as (pe' & GP' & TP). rewrite GP' in GQ. inversion GQ; subst. rewrite TP. exact NP. }
  apply good_bind; [apply map_err_good, good_store_add; auto|]. intros d2 ck H2 S2 M2.
  apply good_bind.
  { apply good_link_children; [exact S2|]. destruct (store_add d1 (fst x) (Some p)) as [d2' [ck'| | |]] eqn:SA; cbn [map_err] in H2; try discriminate. inversion H2; subst. eapply store_add_has; [apply S1|exact SA]. }
  intros d3 u H3 S3 M3. apply good_bind; [apply good_attach, S3|]. intros d4 u4 H4 S4 M4. apply good_bind; [apply good_post_add, S4|].
  intros d5 u5 H5 S5 M5. apply good_ret; [exact S5|discriminate].
Qed.

(* ---------------------------------------------------------------- annotate *)
Definition feature_goes (d : document) (p : nat) (e : elementdata) : Prop :=
  e_type e = ET_Feature -> forall pe, get_elementdata d p = Some pe -> et_annotationtype (e_type pe) <> None.
Lemma good_add_checked fuel d p e : safe d -> built e -> new_element e -> feature_goes d p e -> good d (add_checked fuel d p e).
Proof.
  intros S B N FG. unfold add_checked. apply good_pure; [exact S| |].
  - unfold check_element_addable. destruct (get_elementdata d p); [|discriminate]. destruct (existsb _ _); discriminate.
  - intros u C. apply good_add_element_to; auto. intros TF. unfold check_element_addable in C. destruct (get_elementdata d p) as [pe|] eqn:G; [|discriminate].
    exists pe. split; [reflexivity|]. apply FG; auto.
Qed.
Lemma check_np d p e : check_element_addable d p e <> Panic.
Proof. unfold check_element_addable. destruct (get_elementdata d p); [|discriminate]. destruct (existsb _ _); discriminate. Qed.
Lemma get_layer_key_np fuel d key t set : safe d -> get_layer_key fuel d key t set <> Panic.
Proof.
  intros S. unfold get_layer_key. apply rbind_np; [destruct (at_layertype t); discriminate|]. intros lt _.
  apply rbind_np; [destruct set; discriminate|]. intros s _. destruct (get_elementdata d key) as [e|] eqn:G; [|discriminate].
  rewrite (full_key _ _ _ (proj1 S) G). cbn [expect rbind]. apply rbind_np.
  - apply sel_first_np; [exact S|reflexivity|]. apply init_on_stack. unfold has. rewrite G. discriminate.
  - intros [k|] _; discriminate.
Qed.
Lemma layer_built lt set : let e := match set with Some s => e_set_attrib (e_new lt) (A_Set s) | None => e_new lt end in built e /\ new_element e /\ e_type e = lt.
Proof.
  cbv zeta. destruct set as [s|]; (split; [|split; [|reflexivity]]).
  - constructor; [|intros c []]. intros a I. cbn in I. destruct I as [<-|[]]. reflexivity.
  - constructor; cbn; try reflexivity; intros; try contradiction; intros [].
  - constructor; [intros a []|intros c []].
  - constructor; cbn; try reflexivity; intros; try contradiction; intros [].
Qed.
Lemma layer_not_feature t lt : at_layertype t = Some lt -> lt <> ET_Feature.
Proof. destruct t; cbn; congruence. Qed.
Lemma good_add_in_layer fuel d lo ho t lt set e : safe d -> built e -> new_element e -> e_type e <> ET_Feature -> at_layertype t = Some lt ->
  good d (add_in_layer fuel d lo ho t lt set e).
Proof.
  intros S B N NF AT. unfold add_in_layer. apply good_pure; [exact S|apply get_layer_key_np, S|]. intros lk _.
  apply good_bind.
  - destruct lk as [k|]; [apply good_ret; [exact S|discriminate]|]. cbv zeta.
    destruct (layer_built lt set) as (LB & LN & LT). apply good_pure; [exact S|apply check_np|]. intros u _.
    apply good_add_element_to; auto. intros Q. rewrite LT in Q. exfalso. eapply layer_not_feature; eassumption.
  - intros d1 k _ S1 M1. apply good_pure; [exact S1|apply check_np|]. intros u _. apply good_add_element_to; auto. intros Q. congruence.
Qed.
Lemma span_annotated t : group_contains EG_Span t = true -> et_annotationtype t <> None.
Proof. destruct t; vm_compute; congruence. Qed.
Lemma span_not_feature t : group_contains EG_Span t = true -> t <> ET_Feature.
Proof. destruct t; vm_compute; congruence. Qed.
Lemma common_loop_np fuel d s l : safe d -> forall r, common_loop fuel d s r l <> Panic.
Proof.
  intros S. induction l as [|k l IH]; intros r; cbn [common_loop]; [discriminate|]. destruct (get_elementdata d k) as [e|] eqn:G; [|apply IH].
  rewrite (full_key _ _ _ (proj1 S) G). cbn [expect rbind]. apply rbind_np; [apply ancestors_np, S|]. intros a A.
  rewrite (keys_of_has d a (proj1 S) (ancestors_has _ _ _ _ _ A)). cbn [rbind]. apply IH.
Qed.
Lemma good_annotate fuel d p e : safe d -> built e -> new_element e -> feature_goes d p e -> good d (annotate fuel d p e).
Proof.
  intros S B N FG. unfold annotate. destruct (get_elementdata d p) as [pe|] eqn:G; [|apply good_ret; [exact S|discriminate]].
  destruct (group_contains EG_Span (e_type e)) eqn:SP; [|apply good_add_checked; auto].
  pose proof (span_not_feature _ SP) as NF. assert (TX : textual (e_attribs e)) by (inversion B; assumption).
  apply good_pure; [exact S|apply expect_np, span_annotated, SP|]. intros t _. apply good_pure; [exact S|destruct (at_layertype t); discriminate|]. intros lt LT.
  cbv zeta. apply good_pure; [exact S| |].
  - destruct (_ || _); [|discriminate]. assert (ES : e_set e = Ok (first_pick pick_set (e_attribs e))) by (apply scan_decoded_textual, TX). rewrite ES. cbn [rbind].
    destruct (first_pick _ _); [discriminate|]. destruct (get_default_set d t); discriminate.
  - intros set _. assert (LT' : at_layertype t = Some lt) by (destruct (at_layertype t); cbn in LT; congruence).
    destruct (p_wrefable (props (e_type pe))).
    + destruct (get_span_keys d e) as [|k ks]; [apply good_ret; [exact S|discriminate]|].
      apply good_pure; [exact S|apply unwrap_np; eexists; reflexivity|]. intros s _. apply good_pure; [exact S|apply common_loop_np, S|]. intros anc _.
      destruct (find (suitable d lt) anc); [|apply good_ret; [exact S|discriminate]]. apply good_add_in_layer; auto.
    + destruct (negb false && _); [apply good_add_in_layer; auto|apply good_add_checked; auto].
Qed.
Lemma good_annotate_span fuel d e : safe d -> built e -> new_element e -> good d (annotate_span fuel d e).
Proof.
  intros S B N. unfold annotate_span. destruct (group_contains EG_Span (e_type e)) eqn:SP; cbn [negb]; [|apply good_ret; [exact S|discriminate]].
  destruct (get_span_keys d e) as [|k ks]; [apply good_ret; [exact S|discriminate]|]. apply good_annotate; auto. intros Q. exfalso. eapply span_not_feature; eassumption.
Qed.
