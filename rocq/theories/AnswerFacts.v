(* Facts for C72: adding elements only appends references to the new elements, and what a query selects among the old
   elements stays (LIBRARY: no definition here models code). *)
From Coq Require Import String List Bool Arith NArith Lia.
From Verif Require Import Base BaseFacts Types TypesFacts SpecTable Attrib AttribFacts Element Store StoreFacts Metadata Document Select DocOps Text Xml Parser Serialiser History Spec
  FrameFacts InvFacts DocFacts StoreThms InternFacts EncodeFacts LinkFacts TreeFacts ForestFacts SelSpec SelectFacts PropsEncode PropsLinks PropsSelect PropsQuery NoPanic SpanFacts ValidFacts PropsValid.
Import ListNotations.
Open Scope list_scope.

(* all elements that the items refer to are at n or above *)
Definition newl (n : nat) (l : list datatype) : Prop := forall x j, In x l -> item_key x = [j] -> n <= j.
Lemma newl_nil n : newl n [].
Proof. intros x j []. Qed.
Lemma newl_app n a b : newl n a -> newl n b -> newl n (a ++ b).
Proof. intros A B x j I. apply in_app_iff in I. destruct I as [I|I]; [apply (A x j I)|apply (B x j I)]. Qed.
Lemma newl_one n x : (forall j, item_key x = [j] -> n <= j) -> newl n [x].
Proof. intros H y j [<-|[]]. apply H. Qed.

(* d has what d0 has; new elements are at n or above, and all new references are to new elements *)
Definition kept_old (n : nat) (d0 d : document) : Prop := forall k e0, get_elementdata d0 k = Some e0 ->
  exists e l, get_elementdata d k = Some e /\ e_type e = e_type e0 /\ e_attribs e = e_attribs e0 /\ e_parent e = e_parent e0 /\ e_data e = e_data e0 ++ l /\ newl n l.
Definition refer_new (n : nat) (d : document) : Prop := forall k e, n <= k -> get_elementdata d k = Some e -> newl n (e_data e).
Definition below_new (n : nat) (d : document) : Prop := forall k e q, n <= k -> get_elementdata d k = Some e -> e_parent e = Some q -> n <= q.
Definition keyed (d : document) : Prop := forall k e, get_elementdata d k = Some e -> e_key e = Some k.

Section Since.
Variables (n : nat) (d0 : document).
Hypothesis N0 : forall k, get_elementdata d0 k <> None -> k < n.
Record since (d : document) : Prop := mkSince { si_old : kept_old n d0 d; si_new : refer_new n d; si_par : below_new n d; si_keyed : keyed d; si_len : n <= sh_len d }.
Definition onward (a b : document) : Prop := since a -> since b.
Lemma on_refl d : onward d d. Proof. intros H; exact H. Qed.
Lemma on_trans a b c : onward a b -> onward b c -> onward a c. Proof. unfold onward; auto. Qed.
Lemma on_bind {A B} d (r : document * res A) (f : document -> A -> document * res B) :
  onward d (fst r) -> (forall s a, r = (s, Ok a) -> onward s (fst (f s a))) -> onward d (fst (sbind r f)).
Proof. intros H K. destruct r as [s [a| | |]]; cbn in *; try exact H. eapply on_trans; [exact H|]. apply K. reflexivity. Qed.
Lemma on_pure {A B} d (r : res A) (f : document -> A -> document * res B) :
  (forall a, r = Ok a -> onward d (fst (f d a))) -> onward d (fst (sbind (d, r) f)).
Proof. intros K. destruct r as [a| | |]; cbn; try apply on_refl. apply K. reflexivity. Qed.
Lemma on_same d d' : doc_elements d' = doc_elements d -> onward d d'.
Proof.
  intros E [A B C D L]. split; unfold kept_old, refer_new, below_new, keyed, get_elementdata, sh_len in *; rewrite E; assumption.
Qed.
(* new elements get attributes and a new parent *)
Lemma on_upd_new d k f : n <= k -> (forall e, e_key (f e) = e_key e /\ e_data (f e) = e_data e /\ (e_parent (f e) = e_parent e \/ exists q, e_parent (f e) = Some q /\ n <= q)) -> onward d (upd_element d k f).
Proof.
  intros K F [A B C D L]. split.
  - intros j e0 G. rewrite get_upd_element. destruct (Nat.eqb_spec j k) as [->|NE]; [|apply A, G]. assert (k < n) by (apply N0; congruence). lia.
  - intros j e J. rewrite get_upd_element. destruct (Nat.eqb_spec j k) as [->|NE]; [|apply B, J]. destruct (get_elementdata d k) as [x|] eqn:G; [|discriminate]. cbn. intros Q. injection Q as <-.
    destruct (F x) as (_ & -> & _). apply (B k x K G).
  - intros j e q J. rewrite get_upd_element. destruct (Nat.eqb_spec j k) as [->|NE]; [|apply C, J]. destruct (get_elementdata d k) as [x|] eqn:G; [|discriminate]. cbn. intros Q. injection Q as <-.
    destruct (F x) as (_ & _ & [->|(p & -> & P)]); [apply (C k x q K G)|]. intros Q. injection Q as <-. exact P.
  - intros j e. rewrite get_upd_element. destruct (Nat.eqb_spec j k) as [->|NE]; [|apply D]. destruct (get_elementdata d k) as [x|] eqn:G; [|discriminate]. cbn. intros Q. injection Q as <-.
    destruct (F x) as (-> & _). apply D, G.
  - rewrite upd_len. exact L.
Qed.
Lemma on_push d k x : (forall j, item_key x = [j] -> n <= j) -> onward d (upd_element d k (fun e => e_push e x)).
Proof.
  intros X [A B C D L]. split.
  - intros j e0 G. destruct (A j e0 G) as (e & l & G1 & T & AT & P & DA & NL). rewrite get_upd_element. destruct (Nat.eqb_spec j k) as [->|NE]; [|eauto 10].
    rewrite G1. cbn. exists (e_push e x), (l ++ [x]). destruct e; cbn in *. subst. split; [reflexivity|]. repeat (split; [reflexivity|]). split; [rewrite <- app_assoc; reflexivity|]. apply newl_app; [exact NL|apply newl_one, X].
  - intros j e J. rewrite get_upd_element. destruct (Nat.eqb_spec j k) as [->|NE]; [|apply B, J]. destruct (get_elementdata d k) as [y|] eqn:G; [|discriminate]. cbn. intros Q. injection Q as <-.
    specialize (B k y J G). destruct y; cbn in *. apply newl_app; [exact B|apply newl_one, X].
  - intros j e q J. rewrite get_upd_element. destruct (Nat.eqb_spec j k) as [->|NE]; [|apply C, J]. destruct (get_elementdata d k) as [y|] eqn:G; [|discriminate]. cbn. intros Q. injection Q as <-.
    specialize (C k y q J G). destruct y; exact C.
  - intros j e. rewrite get_upd_element. destruct (Nat.eqb_spec j k) as [->|NE]; [|apply D]. destruct (get_elementdata d k) as [y|] eqn:G; [|discriminate]. cbn. intros Q. injection Q as <-.
    specialize (D k y G). destruct y; exact D.
  - rewrite upd_len. exact L.
Qed.
Lemma on_store d e ctx : newl n (e_data e) -> e_parent e = None -> onward d (fst (store_add d e ctx)).
Proof.
  intros ND NP. pose proof (store_add_cases d e ctx) as CS. pose proof (encode_elements d e ctx) as EE. pose proof (encode_value d e ctx) as EV. revert CS.
  generalize (fst (store_add d e ctx)) (snd (store_add d e ctx)). intros d2 r CS.
  destruct CS as [d1 e1 id k E I J|d1 e1 s E N' B IT IX|d1 e1 E N' B|d1 r E NR]; rewrite E in EE; cbn [fst] in EE; try (apply on_same, EE).
  intros [A B' C D L]. destruct (EV _ _ E) as (V1 & V2 & V3 & V4 & V5).
  assert (GG : forall j, get_elementdata (doc_with_elements d1 s) j = if Nat.eqb j (sh_len d) then Some (e_assign_key (st_len (doc_elements d)) e1) else get_elementdata d j).
  { intros j. unfold get_elementdata, sh_len. docs_g. rewrite (st_get_snoc _ _ _ _ IT). reflexivity. }
  split.
  - intros j e0 G. assert (j < n) by (apply N0; congruence). rewrite GG. destruct (Nat.eqb_spec j (sh_len d)); [lia|]. apply A, G.
  - intros j x J. rewrite GG. destruct (Nat.eqb_spec j (sh_len d)); [|apply B', J]. intros Q. injection Q as <-. replace (e_data (e_assign_key (st_len (doc_elements d)) e1)) with (e_data e) by (destruct e1; cbn in *; congruence). exact ND.
  - intros j x q J. rewrite GG. destruct (Nat.eqb_spec j (sh_len d)); [|apply C, J]. intros Q. injection Q as <-. destruct e1; cbn in *. congruence.
  - intros j x. rewrite GG. destruct (Nat.eqb_spec j (sh_len d)) as [->|]; [|apply D]. intros Q. injection Q as <-. destruct e1; cbn in *. reflexivity.
  - unfold sh_len in *. docs_g. unfold st_len in *. rewrite IT, app_length. cbn. lia.
Qed.
Lemma anc_next_new d s : below_new n d -> forall fuel k a, n <= k -> anc_next fuel d s k = Ok (Some a) -> n <= a.
Proof.
  intros P. induction fuel as [|f IH]; intros k a K; cbn [anc_next]; [discriminate|]. destruct (get_elementdata d k) as [e|] eqn:G; [|discriminate]. destruct (e_parent e) as [p|] eqn:EP; [|discriminate].
  pose proof (P k e p K G EP) as NP. destruct (matches s d (DElement p)) as [[]| | |]; try discriminate; destruct (get_elementdata d p); try discriminate; [|apply (IH p a NP)]. intros Q. injection Q as <-. exact NP.
Qed.
Lemma on_post_add fuel d k : n <= k -> onward d (fst (post_add fuel d k None)).
Proof.
  intros K S. revert S. unfold post_add. destruct (get_elementdata d k) as [e|]; [|apply on_refl].
  assert (LY : onward d (fst (if group_contains EG_Layer (e_type e) && negb (e_has_attrib e AB_SET)
             then let! d0, dk := (d, layer_declaration fuel d e) in
                  match dk with
                  | Some dk0 => (upd_element d0 k (fun x => e_with_attribs x [A_DeclarationRef dk0]), Ok tt)
                  | None => (d0, Ok tt)
                  end
             else (d, Ok tt)))).
  { destruct (_ && _); [|apply on_refl]. apply on_pure. intros [dk|] _; [|apply on_refl]. apply on_upd_new; [exact K|]. intros [ty a l key par]; cbn; auto. }
  destruct (e_type e); try exact LY. unfold post_add_wref. destruct (attribs_last_idref (e_attribs e) None) as [id|]; [|apply on_refl].
  intros S. revert S. apply on_pure. intros [sk|] A; [|apply on_refl]. apply on_pure. intros [tk|] _; [|apply on_refl]. cbn [fst].
  intros S. revert S. intros S. refine (on_push d tk (DSpanReference sk) _ S). intros j Q. injection Q as <-.
  apply rbind_ok in A. destruct A as ([a|] & A & Q); [|discriminate]. apply rbind_ok in Q. destruct Q as (b & Q & C). injection C as ->.
  pose proof (anc_next_new d _ (si_par d S) _ _ _ K A) as NA. pose proof (anc_next_has _ _ _ _ _ A) as HA. unfold has in HA. unfold key_of in Q. destruct (get_elementdata d a) as [x|] eqn:G; [|congruence].
  rewrite (si_keyed d S a x G) in Q. cbn in Q. injection Q as <-. exact NA.
Qed.
Lemma on_link fuel p ks : n <= p -> (forall k, In k ks -> n <= k) -> forall d, onward d (fst (link_children fuel d p ks)).
Proof.
  intros P. induction ks as [|k ks IH]; intros K d; cbn [link_children]; [apply on_refl|]. cbv zeta. assert (NK : n <= k) by (apply K; left; reflexivity).
  eapply on_trans; [apply (on_upd_new d k (e_set_parent (Some p)) NK); intros [ty a l key par]; cbn; split; [reflexivity|]; split; [reflexivity|]; right; exists p; auto|]. apply on_bind; [apply on_post_add, NK|]. intros; apply IH. intros j J. apply K. right. exact J.
Qed.
(* a stored element that was not there has a new key *)
Lemma store_key d e ctx d1 k : n <= sh_len d -> new_id d e -> store_add d e ctx = (d1, Ok k) -> n <= k.
Proof. intros L NI S. destruct (store_add_sh d e ctx d1 k NI S) as (-> & _). exact L. Qed.
Lemma on_data fuel e : forall d d1 l ks, add_data fuel d (e_data e) = (d1, Ok (l, ks)) -> new_element e -> NoDup (ids_in e) -> (forall id, In id (ids_in e) -> ~ has_id d id) ->
  n <= sh_len d -> onward d d1 /\ newl n l.
Proof.
  induction e as [e IH] using elem_ind. intros d d1 l ks H NE ND NI.
  assert (NIT : new_items (e_data e)) by (inversion NE; split; [|split]; assumption).
  assert (NDD : NoDup (ids_data (e_data e))). { rewrite ids_in_eq in ND. apply NoDup_app_inv in ND. tauto. }
  assert (NID : forall id, In id (ids_data (e_data e)) -> ~ has_id d id). { intros id I. apply NI. rewrite ids_in_eq, in_app_iff. auto. }
  clear NE ND NI. revert d l ks H NDD NID. induction (e_data e) as [|x r IHr]; intros d l ks H ND NI LN.
  - cbn in H. inversion H; subst. split; [apply on_refl|apply newl_nil].
  - inversion IH as [|x' r' HX HR]; subst. destruct (new_items_cons _ _ NIT) as (NR & NX). specialize (IHr HR NR). destruct x; cbn [add_data] in H; try contradiction.
    + apply sbind_ok in H. destruct H as (d2 & y & A & H). inversion H; subst; clear H. destruct y as [l' ks']. destruct (IHr _ _ _ A ND NI LN) as (O & NL). split; [exact O|]. apply (newl_app n [_] l'); [apply newl_one; discriminate|exact NL].
    + apply sbind_ok in H. destruct H as (d2 & y & A & H). inversion H; subst; clear H. destruct y as [l' ks']. destruct (IHr _ _ _ A ND NI LN) as (O & NL). split; [exact O|]. apply (newl_app n [_] l'); [apply newl_one; discriminate|exact NL].
    + apply sbind_ok in H. destruct H as (dA & z & A & H). apply sbind_ok in H. destruct H as (dB & ck & B & H). apply sbind_ok in H. destruct H as (dC & u & C & H).
      apply sbind_ok in H. destruct H as (dD & w & D & H). inversion H; subst; clear H. destruct u. destruct w as [l' ks'].
      destruct (add_children_data _ _ _ _ _ A) as (lc & kc & A1 & A2 & A3). rewrite A2 in B. rewrite A3 in C. cbn [ids_data] in ND, NI.
      apply NoDup_app_inv in ND. destruct ND as (NDc & NDr & DIS).
      assert (NIc : forall id, In id (ids_in e0) -> ~ has_id d id) by (intros id I; apply NI, in_app_iff; auto).
      destruct (add_one fuel d e0 dA lc kc None dB ck dC (all_adds_well e0) A1 NX NDc NIc B C) as (EK & LC & FC & OC & RC & PC & XC & GC).
      destruct (HX _ _ _ _ A1 NX NDc NIc LN) as (G1 & NL1).
      assert (PN : e_parent (e_with_data e0 lc) = None) by (inversion NX; destruct e0; assumption). assert (DL : newl n (e_data (e_with_data e0 lc))) by (destruct e0; exact NL1).
      pose proof (on_store dA (e_with_data e0 lc) None DL PN) as G2. rewrite B in G2. assert (NK : n <= ck) by lia.
      assert (WK : forall j, In j kc -> n <= j).
      { destruct (all_adds_well e0 fuel d dA lc kc A1 NX NDc NIc) as [_ _ _ _ _ W1 _]. assert (KS : kc = child_keys lc) by (pose proof (add_data_keys _ _ _ _ _ A1) as K; cbn in K; apply K; inversion NX; assumption).
        intros j J. rewrite KS in J. destruct (W1 j J). lia. }
      pose proof (on_link fuel ck kc NK WK dB) as G3. rewrite C in G3. cbn [fst] in *.
      assert (G4 : onward dC d1 /\ newl n l').
      { apply (IHr _ _ _ D NDr); [|lia]. intros id I HI. destruct (GC _ HI) as [Q|Q]; [apply (NI id); [apply in_app_iff; auto|exact Q]|]. apply (DIS _ Q I). }
      destruct G4 as (G4 & NL4). split; [eapply on_trans; [exact G1|]; eapply on_trans; [exact G2|]; eapply on_trans; [exact G3|exact G4]|].
      apply (newl_app n [_] l'); [apply newl_one; intros j Q; injection Q as <-; exact NK|exact NL4].
Qed.
End Since.

(* what adding an element other than a word reference does to the elements that were there *)
Record widens (n : nat) (d d1 : document) : Prop := mkWidens { wi_old : kept_old n d d1; wi_new : refer_new n d1 }.

Lemma widens_refl n d : (forall k, get_elementdata d k <> None -> k < n) -> widens n d d.
Proof.
  intros N. split.
  - intros k e G. exists e, []. rewrite app_nil_r. split; [exact G|]. repeat (split; [reflexivity|]). apply newl_nil.
  - intros k e K G. assert (k < n) by (apply N; congruence). lia.
Qed.
Lemma newl_less n m l : n <= m -> newl m l -> newl n l.
Proof. intros L H x j I K. specialize (H x j I K). lia. Qed.
Lemma widens_trans a b c : widens (sh_len a) a b -> widens (sh_len b) b c -> sh_len a <= sh_len b -> (forall k e, get_elementdata b k = Some e -> k < sh_len b) ->
  (forall k, sh_len b <= k -> get_elementdata b k = None) -> (forall k, k < sh_len b -> get_elementdata b k <> None) -> widens (sh_len a) a c.
Proof.
  intros [A1 A2] [B1 B2] L K NB HB. split.
  - intros k e G. destruct (A1 k e G) as (e1 & l1 & G1 & T1 & AT1 & P1 & D1 & N1). destruct (B1 k e1 G1) as (e2 & l2 & G2 & T2 & AT2 & P2 & D2 & N2).
    exists e2, (l1 ++ l2). split; [exact G2|]. split; [congruence|]. split; [congruence|]. split; [congruence|]. split; [rewrite D2, D1, app_assoc; reflexivity|]. apply newl_app; [exact N1|]. eapply newl_less; [exact L|exact N2].
  - intros k e KA G. destruct (le_lt_dec (sh_len b) k) as [Q|Q]; [eapply newl_less; [exact L|eapply B2; eassumption]|].
    destruct (get_elementdata b k) as [e1|] eqn:G1; [|destruct (HB k Q G1)]. destruct (B1 k e1 G1) as (e2 & l2 & G2 & _ & _ & _ & D2 & N2). replace e with e2 by congruence. rewrite D2.
    apply newl_app; [eapply A2; eassumption|eapply newl_less; [exact L|exact N2]].
Qed.
Lemma add_to_widens fuel d p e d1 k : keyed d -> p < sh_len d -> fresh_for d e -> e_type e <> ET_WordReference -> add_element_to fuel d p e = (d1, Ok k) -> widens (sh_len d) d d1.
Proof.
  intros KD PL (NE & ND & NI) NW H. assert (N0 : forall k, get_elementdata d k <> None -> k < sh_len d) by (intros j J; apply sh_exists, J).
  unfold add_element_to in H. apply sbind_ok in H. destruct H as (dA & x & A & H).
  apply sbind_ok in H. destruct H as (dB & ck & B & H). apply sbind_ok in H. destruct H as (dC & u & C & H).
  apply sbind_ok in H. destruct H as (dD & v & D & H). apply sbind_ok in H. destruct H as (dE & w & E & H). inversion H; subst; clear H.
  destruct u, v. destruct (add_children_data _ _ _ _ _ A) as (lc & kc & A1 & A2 & A3). rewrite A2 in B. rewrite A3 in C.
  assert (B' : store_add dA (e_with_data e lc) (Some p) = (dB, Ok k)).
  { unfold map_err in B. destruct (store_add dA (e_with_data e lc) (Some p)) as [s [a| | |]]; try discriminate; exact B. }
  assert (NI' : forall id, In id (ids_in e) -> ~ has_id d id) by (intros id I; apply not_has_id, NI, I).
  destruct (add_one fuel d e dA lc kc (Some p) dB k dC (all_adds_well e) A1 NE ND NI' B' C) as (EK & LC & FC & OC & RC & PC & XC & GC).
  assert (KP : p <> k) by lia. rewrite sh_parent in PC.
  assert (WK : forall j, In j kc -> sh_len d <= j).
  { destruct (all_adds_well e fuel d dA lc kc A1 NE ND NI') as [_ _ _ _ _ W1 _]. assert (KS : kc = child_keys lc) by (pose proof (add_data_keys _ _ _ _ _ A1) as K; cbn in K; apply K; inversion NE; assumption).
    intros j J. rewrite KS in J. apply (W1 j J). }
  destruct (on_data (sh_len d) d N0 fuel e d dA lc kc A1 NE ND NI' (le_n _)) as (G1 & NL1).
  assert (PN : e_parent (e_with_data e lc) = None) by (inversion NE; destruct e; assumption). assert (DL : newl (sh_len d) (e_data (e_with_data e lc))) by (destruct e; exact NL1).
  pose proof (on_store (sh_len d) d N0 dA (e_with_data e lc) (Some p) DL PN) as G2. rewrite B' in G2. assert (NK : sh_len d <= k) by lia.
  pose proof (on_link (sh_len d) d N0 fuel k kc NK WK dB) as G3. rewrite C in G3. cbn [fst] in *.
  assert (SC : since (sh_len d) d dC).
  { apply G3, G2, G1. destruct (widens_refl (sh_len d) d N0) as [W1 W2]. split; [exact W1|exact W2| |exact KD|apply le_n]. intros j y q J G. assert (j < sh_len d) by (apply N0; congruence). lia. }
  destruct SC as [S1 S2 S3 S4 S5].
  assert (TK : exists ke, get_elementdata dC k = Some ke /\ e_type ke = e_type e /\ e_parent ke = None).
  { apply rb_renders, renders_eq in RC. destruct RC as (z & GZ & T & _). unfold sh in GZ. unfold parent_of in PC. destruct (get_elementdata dC k) as [ke|]; [|discriminate]. injection GZ as <-. exists ke. split; [reflexivity|]. split; [exact T|exact PC]. }
  destruct TK as (ke & GK & TK & PK).
  unfold attach_element in D. destruct (get_elementdata dC p) as [pe|] eqn:GP; [|discriminate]. rewrite GK, PK in D. injection D as <-.
  set (dD := upd_element (upd_element dC k (e_set_parent (Some p))) p (fun e => e_push e (DElement k))) in *.
  assert (GD : forall j, get_elementdata dD j = if Nat.eqb j p then Some (e_push pe (DElement k)) else if Nat.eqb j k then Some (e_set_parent (Some p) ke) else get_elementdata dC j).
  { intros j. unfold dD. rewrite !get_upd_element. destruct (Nat.eqb_spec j p) as [->|]; [destruct (Nat.eqb_spec p k); [contradiction|]; rewrite GP; reflexivity|]. destruct (Nat.eqb_spec j k) as [->|]; [rewrite GK; reflexivity|reflexivity]. }
  assert (WD : widens (sh_len d) d dD).
  { split.
    - intros j e0 G. destruct (S1 j e0 G) as (y & l & GY & R). rewrite GD. destruct (Nat.eqb_spec j p) as [->|].
      + replace y with pe in * by congruence. destruct R as (R1 & R2 & R3 & R4 & R5). exists (e_push pe (DElement k)), (l ++ [DElement k]). destruct pe; cbn in *. subst. split; [reflexivity|]. repeat (split; [reflexivity|]).
        split; [rewrite <- app_assoc; reflexivity|]. apply newl_app; [exact R5|]. apply newl_one. intros j Q. injection Q as <-. exact NK.
      + destruct (Nat.eqb_spec j k) as [->|]; [assert (k < sh_len d) by (apply N0; congruence); lia|]. exists y, l. auto.
    - intros j z J. rewrite GD. destruct (Nat.eqb_spec j p) as [->|]; [lia|]. destruct (Nat.eqb_spec j k) as [->|]; [|apply S2, J]. intros Q. injection Q as <-. pose proof (S2 k ke NK GK) as Z. destruct ke; exact Z. }
  unfold post_add in E. destruct (get_elementdata dD k) as [kd|] eqn:GKD; [|discriminate].
  assert (TD : e_type kd = e_type e).
  { rewrite GD in GKD. destruct (Nat.eqb_spec k p); [congruence|]. rewrite Nat.eqb_refl in GKD. injection GKD as <-. destruct ke; exact TK. }
  assert (X : d1 = dD \/ exists dk, d1 = upd_element dD k (fun x => e_with_attribs x [A_DeclarationRef dk])).
  { assert (Y : (if group_contains EG_Layer (e_type kd) && negb (e_has_attrib kd AB_SET)
             then let! d0, dk := (dD, layer_declaration fuel dD kd) in
                  match dk with
                  | Some dk0 => (upd_element d0 k (fun x => e_with_attribs x [A_DeclarationRef dk0]), Ok tt)
                  | None => (d0, Ok tt)
                  end
             else (dD, Ok tt)) = (d1, Ok w)) by (rewrite <- TD in NW; destruct (e_type kd); try exact E; congruence).
    destruct (_ && _) in Y; [|injection Y as <- _; auto]. destruct (layer_declaration fuel dD kd) as [[dk|]| | |]; cbn [sbind] in Y; try discriminate; injection Y as <- _; eauto. }
  destruct X as [->|(dk & ->)]; [exact WD|]. destruct WD as [W1 W2]. split.
  - intros j e0 G. destruct (W1 j e0 G) as (y & l & GY & R). rewrite get_upd_element. destruct (Nat.eqb_spec j k) as [->|]; [assert (k < sh_len d) by (apply N0; congruence); lia|eauto].
  - intros j z J. rewrite get_upd_element. destruct (Nat.eqb_spec j k) as [->|]; [|apply W2, J]. rewrite GKD. cbn. intros Q. injection Q as <-. pose proof (W2 k kd NK GKD) as Z. destruct kd; exact Z.
Qed.

(* ---------------------------------------------------------------- the walk *)
(* the item stands for an element below n *)
Definition oldi (n : nat) (i : selectitem) : bool := match item_key (si_data i) with [j] => Nat.ltb j n | _ => false end.
Lemma oldi_elem n x k i m j : item_key x = [j] -> oldi n (mkItem x k i m) = Nat.ltb j n.
Proof. intros H. unfold oldi. cbn [si_data]. rewrite H. reflexivity. Qed.
Lemma oldi_other n x k i m : (forall j, item_key x <> [j]) -> oldi n (mkItem x k i m) = false.
Proof. intros H. unfold oldi. cbn [si_data]. destruct x; cbn in *; try reflexivity; destruct (H k0); reflexivity. Qed.
Lemma oldi_new n x k i m l : newl n l -> In x l -> oldi n (mkItem x k i m) = false.
Proof. intros NL I. unfold oldi. cbn [si_data]. destruct (item_key x) as [|j [|]] eqn:E; try reflexivity. apply Nat.ltb_ge. eapply NL; eassumption. Qed.
Lemma newl_cons n x l : newl n (x :: l) -> newl n l.
Proof. intros H y j I. apply H. right. exact I. Qed.
Lemma walk_new n d1 r : refer_new n d1 ->
  (forall m k w, walk d1 r m k w -> n <= k -> filter (oldi n) w = []) /\
  (forall m k t i l w, walk_data d1 r m k t i l w -> newl n l -> filter (oldi n) w = []).
Proof.
  intros RN. apply (walk_both d1 r (fun m k w _ => n <= k -> filter (oldi n) w = []) (fun m k t i l w _ => newl n l -> filter (oldi n) w = [])).
  - intros m k e w G W IH K. apply IH. eapply RN; eassumption.
  - reflexivity.
  - intros m k t i c rest below w D B IHB W IHW NL. cbn [filter]. rewrite (oldi_new n _ _ _ _ _ NL (or_introl eq_refl)), filter_app, IHB, IHW; [reflexivity|eapply newl_cons, NL|].
    apply (NL (DElement c) c); [left; reflexivity|reflexivity].
  - intros m k t i x rest w D W IHW NL. cbn [filter]. rewrite (oldi_new n _ _ _ _ _ NL (or_introl eq_refl)). apply IHW. eapply newl_cons, NL.
Qed.
Lemma walk_old n d d1 r : widens n d d1 -> (forall k e c, get_elementdata d k = Some e -> In (DElement c) (e_data e) -> get_elementdata d c <> None) ->
  (forall m k w, walk d r m k w -> forall w1, walk d1 r m k w1 -> filter (oldi n) w1 = filter (oldi n) w) /\
  (forall m k t i l w, walk_data d r m k t i l w -> (forall c, In (DElement c) l -> get_elementdata d c <> None) -> forall tl w1, newl n tl -> walk_data d1 r m k t i (l ++ tl) w1 -> filter (oldi n) w1 = filter (oldi n) w).
Proof.
  intros [WO WN] CH. pose proof (walk_new n d1 r WN) as (_ & NEW).
  apply (walk_both d r (fun m k w _ => forall w1, walk d1 r m k w1 -> filter (oldi n) w1 = filter (oldi n) w)
    (fun m k t i l w _ => (forall c, In (DElement c) l -> get_elementdata d c <> None) -> forall tl w1, newl n tl -> walk_data d1 r m k t i (l ++ tl) w1 -> filter (oldi n) w1 = filter (oldi n) w)).
  - intros m k e w G W IH w1 W1. inversion W1 as [m' k' e1 w' G1 WD]; subst. destruct (WO k e G) as (y & l & GY & T & _ & _ & DA & NL). replace y with e1 in * by congruence. rewrite T, DA in WD.
    eapply IH; [|exact NL|exact WD]. intros c C. eapply CH; eassumption.
  - intros m k t i _ tl w1 NL W1. cbn [app] in W1. rewrite (NEW _ _ _ _ _ _ W1 NL). reflexivity.
  - intros m k t i c rest below w D B IHB W IHW C tl w1 NL W1. cbn [app] in W1. inversion W1 as [|m' k' t' i' c' rest' below1 w2 D1 B1 W2|m' k' t' i' x rest' w2 ST W2]; subst; [|destruct (ST D c eq_refl)].
    cbn [filter]. rewrite !filter_app, (IHB _ B1), (IHW (fun c I => C c (or_intror I)) tl w2 NL W2). reflexivity.
  - intros m k t i x rest w ST W IHW C tl w1 NL W1. cbn [app] in W1. inversion W1 as [|m' k' t' i' c' rest' below1 w2 D1 B1 W2|m' k' t' i' x' rest' w2 ST1 W2]; subst; [destruct (ST D1 c' eq_refl)|].
    cbn [filter]. rewrite (IHW (fun c I => C c (or_intror I)) tl w2 NL W2). reflexivity.
Qed.

(* ---------------------------------------------------------------- what is chosen *)
Lemma chosen_filter {A} (P : A -> Prop) f w m : chosen P w m -> chosen P (filter f w) (filter f m).
Proof.
  induction 1 as [|x l m H C IH|x l m H C IH]; cbn [filter]; [constructor| |].
  - destruct (f x); [apply chosen_keep; assumption|exact IH].
  - destruct (f x); [apply chosen_drop; assumption|exact IH].
Qed.
Lemma chosen_same {A} (P Q : A -> Prop) w m m' : (forall x, In x w -> (P x <-> Q x)) -> chosen P w m -> chosen Q w m' -> m = m'.
Proof.
  intros E C. revert m'. induction C as [|x l m H C IH|x l m H C IH]; intros m' C'; inversion C'; subst; try reflexivity.
  - f_equal. apply IH; [intros y Y; apply E; right; exact Y|assumption].
  - destruct H2. apply E; [left; reflexivity|exact H].
  - destruct H. apply E; [left; reflexivity|assumption].
  - apply IH; [intros y Y; apply E; right; exact Y|assumption].
Qed.
Lemma filter_all {A} (f : A -> bool) l : (forall x, In x l -> f x = true) -> filter f l = l.
Proof. induction l as [|x l IH]; intros H; [reflexivity|]. cbn [filter]. rewrite (H x (or_introl eq_refl)), IH; [reflexivity|]. intros y Y. apply H. right. exact Y. Qed.
Lemma chosen_old {A} (P P1 : A -> Prop) f w w1 m m1 : filter f w1 = filter f w -> (forall x, P x -> f x = true) -> (forall x, f x = true -> (P1 x <-> P x)) ->
  chosen P w m -> chosen P1 w1 m1 -> filter f m1 = m.
Proof.
  intros E PF PP C C1. rewrite <- (filter_all f m) by (intros x I; apply PF; apply (chosen_in P w m x C), I).
  eapply chosen_same; [|apply chosen_filter, C1|rewrite E; apply chosen_filter, C]. intros x I. apply PP. apply filter_In in I. apply I.
Qed.
Lemma once_old n d d1 : (forall i, oldi n i = true -> span_of d1 (si_data i) = span_of d (si_data i)) ->
  forall seen1 m1 l1, once d1 seen1 m1 l1 -> forall seen l, (forall k, k < n -> (In k seen1 <-> In k seen)) -> once d seen (filter (oldi n) m1) l -> filter (oldi n) l1 = l.
Proof.
  intros SP seen1 m1 l1 O. assert (KEY : forall i k, span_of d1 (si_data i) = Some k -> oldi n i = Nat.ltb k n) by (intros i k H; unfold oldi; rewrite (span_of_key _ _ _ H); reflexivity).
  induction O as [se|se i m l H O IH|se i k m l H N O IH|se i k m l H N O IH]; intros seen l0 SE O0.
  - cbn in O0. inversion O0; reflexivity.
  - cbn [filter] in *. destruct (oldi n i) eqn:OI; [|eapply IH; eassumption]. rewrite (SP i OI) in H. inversion O0; subst; try congruence. f_equal. eapply IH; eassumption.
  - cbn [filter] in *. pose proof (KEY i k H) as K. destruct (oldi n i) eqn:OI.
    + symmetry in K. apply Nat.ltb_lt in K. rewrite (SP i OI) in H. inversion O0 as [| |se' i' k' m' l' H' N' O'|se' i' k' m' l' H' N' O']; subst; try congruence.
      * replace k' with k in * by congruence. f_equal. eapply IH; [|exact O']. intros j J. cbn. rewrite (SE j J). reflexivity.
      * replace k' with k in * by congruence. destruct N. apply SE; assumption.
    + symmetry in K. apply Nat.ltb_ge in K. eapply IH; [|exact O0]. intros j J. rewrite <- (SE j J). cbn. split; [intros [<-|Q]; [lia|exact Q]|auto].
  - cbn [filter] in *. pose proof (KEY i k H) as K. destruct (oldi n i) eqn:OI; [|eapply IH; eassumption].
    symmetry in K. apply Nat.ltb_lt in K. rewrite (SP i OI) in H. inversion O0 as [| |se' i' k' m' l' H' N' O'|se' i' k' m' l' H' N' O']; subst; try congruence.
    + replace k' with k in * by congruence. destruct N'. apply SE; assumption.
    + eapply IH; eassumption.
Qed.
