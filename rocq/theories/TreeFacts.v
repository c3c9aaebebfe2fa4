(* Adding freshly built elements keeps the document a forest and stores the tree that was built. *)
From Coq Require Import String List Bool Arith NArith Lia.
From Verif Require Import Base BaseFacts Types TypesFacts SpecTable Attrib AttribFacts Element Store StoreFacts Metadata Document Select DocOps Xml Parser History Spec FrameFacts InvFacts DocFacts StoreThms EncodeFacts LinkFacts.
Import ListNotations.
Open Scope list_scope.

Definition born (d : document) : Prop := forall k s e, sh d k = Some s -> ~ In (DAddElement e) (s_content s).
Definition dense (d : document) : Prop := forall k, k < sh_len d -> sh d k <> None.
Record forest (d : document) : Prop := {
  f_linked : linked (sh d); f_acyc : acyc (sh d); f_dense : dense d; f_born : born d }.
Lemma sh_lt d k s : sh d k = Some s -> k < sh_len d.
Proof. unfold sh, get_elementdata. destruct (st_get (doc_elements d) k) eqn:G; [|discriminate]. intros _. apply st_get_lt in G. exact G. Qed.
Lemma sh_new d : sh d (sh_len d) = None.
Proof. destruct (sh d (sh_len d)) eqn:E; [|reflexivity]. apply sh_lt in E. lia. Qed.
Lemma forest_same d d' : same_sh d d' -> forest d -> forest d'.
Proof.
  intros (A & B & _) [L C D N]. split.
  - eapply linkedX_ext; [exact A| |exact L]. reflexivity.
  - eapply acyc_ext; [|exact C]. intros k. unfold spar. rewrite A. reflexivity.
  - intros k. rewrite A, B. apply D.
  - intros k s e. rewrite A. apply N.
Qed.

(* what an element value contains *)
Fixpoint ids_data (l : list datatype) : list string :=
  match l with [] => [] | DAddElement c :: r => ids_in c ++ ids_data r | _ :: r => ids_data r end.
Lemma ids_in_eq e : ids_in e = (match e_id e with Some id => [id] | None => [] end) ++ ids_data (e_data e).
Proof. destruct e as [t a data k p]. reflexivity. Qed.
Fixpoint size_data (l : list datatype) : nat :=
  match l with [] => 0 | DAddElement c :: r => size c + size_data r | _ :: r => size_data r end.
Lemma size_eq e : size e = S (size_data (e_data e)).
Proof. destruct e as [t a data k p]. reflexivity. Qed.
(* [rb n d k e]: what is stored at k is e, and only keys from n on are involved *)
Section Items.
Variables (R : nat -> elementdata -> Prop) (d : document) (k : nat).
Fixpoint items (l s : list datatype) {struct l} : Prop :=
  match l, s with
  | [], [] => True
  | DText a :: r, DText b :: q => a = b /\ items r q
  | DComment a :: r, DComment b :: q => a = b /\ items r q
  | DAddElement c :: r, DElement ck :: q => parent_of d ck = Some k /\ R ck c /\ items r q
  | _, _ => False
  end.
End Items.
Section Rb.
Variables (n : nat) (d : document).
Fixpoint rb (k : nat) (e : elementdata) {struct e} : Prop :=
  match e with
  | mkElem t _ data _ _ => n <= k /\ exists s, sh d k = Some s /\ s_type s = t /\ items rb d k data (s_content s)
  end.
End Rb.
Lemma rb_eq n d k e : rb n d k e <-> n <= k /\ exists s, sh d k = Some s /\ s_type s = e_type e /\ items (rb n d) d k (e_data e) (s_content s).
Proof. destruct e as [t a data ke p]. reflexivity. Qed.
Lemma renders_eq d k e : renders d k e <-> exists s, sh d k = Some s /\ s_type s = e_type e /\ items (renders d) d k (e_data e) (s_content s).
Proof.
  destruct e as [t a data ke p]. cbn [renders e_type e_data]. split.
  - intros (x & G & T & I). exists (shape_of x). unfold sh. rewrite G. split; [reflexivity|]. split; [exact T|]. exact I.
  - intros (s & G & T & I). unfold sh in G. destruct (get_elementdata d k) as [x|]; [|discriminate]. inversion G; subst. exists x. split; [reflexivity|]. split; [reflexivity|]. exact I.
Qed.
Lemma items_impl (R R' : nat -> elementdata -> Prop) d d' k l : (forall c, In (DAddElement c) l -> forall j, R j c -> R' j c) ->
  (forall j c, R j c -> parent_of d j = Some k -> parent_of d' j = Some k) ->
  forall q, items R d k l q -> items R' d' k l q.
Proof.
  intros H P. induction l as [|x l IH]; intros [|y q] I; try exact I.
  assert (H' : forall c, In (DAddElement c) l -> forall j, R j c -> R' j c) by (intros c C; apply H; right; exact C).
  destruct x, y; cbn [items] in *; try exact I.
  - destruct I as (A & B). split; [exact A|]. apply IH; assumption.
  - destruct I as (A & B). split; [exact A|]. apply IH; assumption.
  - destruct I as (A & B & C). split; [eapply P; eassumption|]. split; [apply H; [left; reflexivity|exact B]|apply IH; assumption].
Qed.
Lemma elem_data_ind (P : elementdata -> Prop) : (forall e, (forall c, In (DAddElement c) (e_data e) -> P c) -> P e) -> forall e, P e.
Proof.
  intros H. induction e as [e IH] using elem_ind. apply H. intros c I. rewrite Forall_forall in IH. exact (IH _ I).
Qed.
Lemma rb_renders n d e : forall k, rb n d k e -> renders d k e.
Proof.
  induction e as [e IH] using elem_data_ind. intros k R. rewrite rb_eq in R. rewrite renders_eq. destruct R as (_ & s & G & T & I).
  exists s. split; [exact G|]. split; [exact T|]. revert I. apply items_impl; [exact IH|auto].
Qed.
(* rendering is kept when types, contents and known parents are *)
Definition mono (n : nat) (d d' : document) : Prop := forall k s, n <= k -> sh d k = Some s ->
  exists s', sh d' k = Some s' /\ s_type s' = s_type s /\ s_content s' = s_content s /\ (s_parent s <> None -> s_parent s' = s_parent s).
Lemma rb_le n d k e : rb n d k e -> n <= k.
Proof. rewrite rb_eq. tauto. Qed.
Lemma rb_mono n d d' e : mono n d d' -> forall k, rb n d k e -> rb n d' k e.
Proof.
  intros M. induction e as [e IH] using elem_data_ind. intros k R. rewrite rb_eq in *. destruct R as (N & s & G & T & I).
  destruct (M _ _ N G) as (s' & G' & T' & C' & _). split; [exact N|]. exists s'. split; [exact G'|]. split; [congruence|]. rewrite C'.
  revert I. apply items_impl; [exact IH|]. intros j c Rj H. apply rb_le in Rj. rewrite <- sh_parent in *. unfold spar in *. destruct (sh d j) as [sj|] eqn:Gj; [|discriminate]. cbn in H.
  destruct (M _ _ Rj Gj) as (sj' & Gj' & _ & _ & P). rewrite Gj'. cbn. rewrite P; congruence.
Qed.
Lemma rb_weaken n m d e : m <= n -> forall k, rb n d k e -> rb m d k e.
Proof.
  intros M. induction e as [e IH] using elem_data_ind. intros k R. rewrite rb_eq in *. destruct R as (N & s & G & T & I). split; [lia|].
  exists s. split; [exact G|]. split; [exact T|]. revert I. apply items_impl; [exact IH|auto].
Qed.
(* items whose elements have no parent yet *)
Section Pre.
Variables (n : nat) (d : document).
Fixpoint pre (l s : list datatype) {struct l} : Prop :=
  match l, s with
  | [], [] => True
  | DText a :: r, DText b :: q => a = b /\ pre r q
  | DComment a :: r, DComment b :: q => a = b /\ pre r q
  | DAddElement c :: r, DElement ck :: q => rb n d ck c /\ pre r q
  | _, _ => False
  end.
End Pre.
Lemma pre_impl n d n' d' l : (forall c k, rb n d k c -> rb n' d' k c) -> forall s, pre n d l s -> pre n' d' l s.
Proof.
  intros M. induction l as [|x l IH]; intros [|y s]; cbn; try tauto; destruct x, y; try tauto; intros (A & B); split; auto.
Qed.
Lemma pre_items n d k l : forall s, pre n d l s -> (forall c, In c (child_keys s) -> parent_of d c = Some k) -> items (rb n d) d k l s.
Proof.
  induction l as [|x l IH]; intros [|y s]; cbn; try tauto; destruct x, y; try tauto.
  - intros (A & B) H. auto.
  - intros (A & B) H. auto.
  - intros (A & B) H. split; [apply H; left; reflexivity|]. split; [exact A|]. apply IH; [exact B|]. intros c I. apply H. right. exact I.
Qed.
Lemma pre_content n d l : forall s, pre n d l s -> filter (fun x => negb (is_spanref x)) s = s /\ forall e, ~ In (DAddElement e) s.
Proof.
  induction l as [|x l IH]; intros [|y s]; cbn; try tauto; destruct x, y; try tauto; intros H; cbn; destruct (IH s) as (A & B); try tauto;
    (split; [rewrite A; reflexivity|]); intros e0 [E|I]; try discriminate; eapply B, I.
Qed.

(* the index after adding *)
Definition has_id (d : document) (id : string) : Prop := get_element_key_by_id d id <> None.
Definition ids_grow (d d' : document) (ids : list string) : Prop :=
  (forall id, has_id d' id -> has_id d id \/ In id ids).
Lemma has_id_index d d' id : st_index (doc_elements d') = st_index (doc_elements d) -> has_id d' id <-> has_id d id.
Proof. intros E. unfold has_id, get_element_key_by_id, st_id_to_key. rewrite E. tauto. Qed.

(* storing one element whose children are stored and waiting, and linking the children *)
Lemma store_link fuel d e ctx d2 k d3 ks : new_id d e -> e_parent e = None ->
  (forall x, ~ In (DAddElement x) (content e)) -> child_keys (e_data e) = ks -> NoDup ks ->
  (forall c, In c ks -> sh d c <> None /\ spar (sh d) c = None) ->
  store_add d e ctx = (d2, Ok k) -> link_children fuel d2 k ks = (d3, Ok tt) ->
  k = sh_len d /\ sh_len d3 = S (sh_len d) /\ (forest d -> forest d3) /\
  (forall j, sh d3 j = if Nat.eqb j k then Some (shape_of e) else adopt (sh d) k ks j) /\
  st_index (doc_elements d3) = match e_id e with Some id => smap_insert id k (st_index (doc_elements d)) | None => st_index (doc_elements d) end.
Proof.
  intros N EP NA CK ND PK SA LC. destruct (store_add_sh _ _ _ _ _ N SA) as (EK & E2 & S2 & I2).
  destruct (link_children_sh _ _ _ _ _ LC) as (S3 & E3 & I3).
  assert (NK : ~ In k ks). { intros I. destruct (PK _ I) as (X & _). apply X. subst k. apply sh_new. }
  assert (SK : forall j, sh d3 j = if Nat.eqb j k then Some (shape_of e) else adopt (sh d) k ks j).
  { intros j. rewrite S3. unfold adopt. rewrite S2. destruct (Nat.eqb_spec j k) as [->|NE]; [|reflexivity]. apply mem_nat_false in NK. rewrite NK. reflexivity. }
  split; [exact EK|]. split; [congruence|]. split; [|split; [exact SK|congruence]].
  assert (SC : child_keys (s_content (shape_of e)) = ks). { cbn. unfold content. rewrite child_keys_content. exact CK. }
  assert (MN : sh d k = None) by (subst k; apply sh_new).
  assert (PK2 : forall c, In c ks -> sh d2 c <> None /\ spar (sh d2) c = None).
  { intros c I. destruct (PK c I) as (X & Y). unfold spar. rewrite S2. destruct (Nat.eqb_spec c k) as [->|NE]; [contradiction|]. auto. }
  intros [L C D B]. split.
  - eapply linked_adopt; [exact S3| |exact PK2]. rewrite <- SC. eapply linked_new; [exact MN|exact S2|exact L|exact EP|rewrite SC; exact ND|].
    intros c I. rewrite SC in I. apply (PK c I).
  - eapply acyc_adopt; [exact S3|exact NK| |]; [|eapply acyc_new; [exact MN|exact S2|exact EP|exact C]].
    unfold spar. rewrite S2, Nat.eqb_refl. exact EP.
  - intros j. rewrite E3, E2, SK. intros J. destruct (Nat.eqb_spec j k) as [->|NE]; [discriminate|]. unfold adopt.
    assert (X : sh d j <> None) by (apply D; lia). destruct (mem_nat j ks); [|exact X]. destruct (sh d j); [discriminate|congruence].
  - intros j s x. rewrite SK. destruct (Nat.eqb_spec j k) as [->|NE].
    + intros H. inversion H; subst. apply NA.
    + unfold adopt. destruct (mem_nat j ks); [|apply B]. destruct (sh d j) as [s'|] eqn:G; [|discriminate]. cbn. intros H. inversion H; subst. cbn. eapply B, G.
Qed.

(* the result of adding the nested elements in a list of content items *)
Record data_added (d d1 : document) (l0 l : list datatype) : Prop := {
  da_forest : forest d -> forest d1;
  da_len : sh_len d1 = sh_len d + size_data l0;
  da_old : forall j, j < sh_len d -> sh d1 j = sh d j;
  da_pre : pre (sh_len d) d1 l0 l;
  da_nodup : NoDup (child_keys l);
  da_wait : forall c, In c (child_keys l) -> sh_len d <= c /\ sh d1 c <> None /\ spar (sh d1) c = None;
  da_ids : ids_grow d d1 (ids_data l0) }.

Definition new_items (l : list datatype) : Prop :=
  (forall k, ~ In (DElement k) l) /\ (forall k, ~ In (DSpanReference k) l) /\ (forall c, In (DAddElement c) l -> new_element c).
Lemma new_items_cons x l : new_items (x :: l) -> new_items l /\ match x with DText _ | DComment _ => True | DAddElement c => new_element c | _ => False end.
Proof.
  intros (A & B & C). split; [split; [|split]|].
  - intros k I. apply (A k). right. exact I.
  - intros k I. apply (B k). right. exact I.
  - intros c I. apply C. right. exact I.
  - destruct x; auto; [destruct (A k); left; reflexivity|destruct (B k); left; reflexivity|apply C; left; reflexivity].
Qed.
Lemma NoDup_app_inv {A} (a b : list A) : NoDup (a ++ b) -> NoDup a /\ NoDup b /\ forall x, In x a -> ~ In x b.
Proof.
  induction a as [|x a IH]; cbn; intros H; [split; [constructor|]; split; [exact H|intros x []]|].
  inversion H as [|? ? NI ND]; subst. destruct (IH ND) as (P & Q & R). split; [constructor; [|exact P]; intros I; apply NI, in_app_iff; auto|].
  split; [exact Q|]. intros y [->|I]; [intros J; apply NI, in_app_iff; auto|apply R, I].
Qed.

(* add_children is the loop over the content, also when there is nothing to add *)
Lemma add_data_plain fuel d l : existsb is_add l = false -> add_data fuel d l = (d, Ok (l, [])).
Proof.
  revert d. induction l as [|x l IH]; intros d H; [reflexivity|]. cbn [existsb] in H. apply orb_false_iff in H. destruct H as (A & B).
  destruct x; cbn [add_data]; try discriminate A; rewrite (IH d B); reflexivity.
Qed.
Lemma add_children_data fuel d e d1 x : add_children fuel d e = (d1, Ok x) ->
  exists l ks, add_data fuel d (e_data e) = (d1, Ok (l, ks)) /\ fst x = e_with_data e l /\ opt_list (snd x) = ks.
Proof.
  rewrite add_children_eq. destruct (existsb is_add (e_data e)) eqn:E; intros H.
  - apply sbind_ok in H. destruct H as (s & y & A & H). inversion H; subst. exists (fst y), (snd y). destruct y. auto.
  - inversion H; subst. exists (e_data e), []. split; [apply add_data_plain, E|]. destruct e; auto.
Qed.
Lemma add_data_keys fuel l : forall d d1 x, add_data fuel d l = (d1, Ok x) -> (forall k, ~ In (DElement k) l) -> snd x = child_keys (fst x).
Proof.
  induction l as [|x l IH]; intros d d1 y H N; cbn in H; [inversion H; reflexivity|].
  assert (N' : forall k, ~ In (DElement k) l) by (intros k I; apply (N k); right; exact I).
  destruct x; try (apply sbind_ok in H; destruct H as (d2 & z & A & H); inversion H; subst; cbn; apply (IH _ _ _ A N')).
  - destruct (N k). left. reflexivity.
  - apply sbind_ok in H. destruct H as (d2 & z & _ & H). apply sbind_ok in H. destruct H as (d3 & ck & _ & H). apply sbind_ok in H. destruct H as (d4 & u & _ & H).
    apply sbind_ok in H. destruct H as (d5 & w & A & H). inversion H; subst. cbn. f_equal. apply (IH _ _ _ A N').
Qed.

Definition adds_well (e : elementdata) : Prop := forall fuel d d1 l ks, add_data fuel d (e_data e) = (d1, Ok (l, ks)) -> new_element e ->
  NoDup (ids_in e) -> (forall id, In id (ids_in e) -> ~ has_id d id) -> data_added d d1 (e_data e) l.

Lemma not_has_id d id : ~ has_id d id <-> get_element_key_by_id d id = None.
Proof. unfold has_id. destruct (get_element_key_by_id d id); split; intuition congruence. Qed.
(* adding one nested element: its content, itself, the links to its children *)
Lemma add_one fuel d c d1 l ks ctx d2 ck d3 : adds_well c -> add_data fuel d (e_data c) = (d1, Ok (l, ks)) -> new_element c -> NoDup (ids_in c) ->
  (forall id, In id (ids_in c) -> ~ has_id d id) -> store_add d1 (e_with_data c l) ctx = (d2, Ok ck) -> link_children fuel d2 ck ks = (d3, Ok tt) ->
  ck = sh_len d + size_data (e_data c) /\ sh_len d3 = sh_len d + size c /\ (forest d -> forest d3) /\ (forall j, j < sh_len d -> sh d3 j = sh d j) /\
  rb (sh_len d) d3 ck c /\ spar (sh d3) ck = None /\ sh d3 ck <> None /\ ids_grow d d3 (ids_in c).
Proof.
  intros W A NE ND NI SA LC. destruct (W _ _ _ _ _ A NE ND NI) as [F1 L1 O1 P1 N1 W1 G1].
  destruct (pre_content _ _ _ _ P1) as (C1 & C2).
  assert (NEW : new_id d1 (e_with_data c l)).
  { intros id E. cbn in E. apply not_has_id. intros H. destruct (G1 _ H) as [H0|H0].
    - apply (NI id); [|exact H0]. rewrite ids_in_eq. unfold e_id in *. cbn in E. rewrite E. left. reflexivity.
    - rewrite ids_in_eq in ND. unfold e_id in ND, E. cbn in E. rewrite E in ND. cbn in ND. inversion ND; contradiction. }
  assert (KS : ks = child_keys l).
  { pose proof (add_data_keys _ _ _ _ _ A) as K. cbn in K. apply K. inversion NE; assumption. }
  destruct (store_link fuel d1 (e_with_data c l) ctx d2 ck d3 ks) as (EK & E3 & F3 & S3 & I3); auto.
  - cbn. inversion NE; assumption.
  - intros x I. unfold content in I. cbn in I. rewrite C1 in I. eapply C2, I.
  - subst ks. exact N1.
  - intros x I. subst ks. destruct (W1 x I) as (_ & Q). exact Q.
  - assert (WK : forall j, In j ks -> sh_len d <= j) by (intros j I; subst ks; apply (W1 j I)).
    split; [congruence|]. split; [rewrite E3, L1, size_eq; lia|]. split; [auto|]. split.
    { intros j J. rewrite S3. destruct (Nat.eqb_spec j ck) as [->|NJ]; [lia|]. unfold adopt. rewrite O1 by exact J. destruct (mem_nat j ks) eqn:M; [|reflexivity].
      apply mem_nat_spec in M. apply WK in M. lia. }
    assert (MO : mono (sh_len d) d1 d3).
    { intros j s JN G. rewrite S3. destruct (Nat.eqb_spec j ck) as [->|NJ]; [apply sh_lt in G; lia|]. unfold adopt. rewrite G. destruct (mem_nat j ks) eqn:M; [|exists s; auto].
      eexists. split; [reflexivity|]. split; [reflexivity|]. split; [reflexivity|]. intros X. apply mem_nat_spec in M. subst ks. destruct (W1 j M) as (_ & _ & Q). unfold spar in Q. rewrite G in Q. cbn in Q. congruence. }
    split; [|split; [|split]].
    + rewrite rb_eq. split; [lia|]. exists (shape_of (e_with_data c l)). rewrite S3, Nat.eqb_refl. split; [reflexivity|]. split; [reflexivity|].
      cbn. unfold content. cbn. rewrite C1. apply pre_items; [eapply pre_impl; [|exact P1]; intros c0 k0; apply rb_mono, MO|]. intros x I. rewrite <- sh_parent. unfold spar. rewrite S3.
      rewrite <- KS in I. destruct (Nat.eqb_spec x ck) as [->|NX].
      * apply WK in I as J. exfalso. subst ks. destruct (W1 _ I) as (_ & Q & _). apply Q. rewrite EK. apply sh_new.
      * unfold adopt. apply mem_nat_spec in I as M. rewrite M. subst ks. destruct (W1 _ I) as (_ & Q & _). destruct (sh d1 x); [reflexivity|congruence].
    + unfold spar. rewrite S3, Nat.eqb_refl. cbn. inversion NE; assumption.
    + rewrite S3, Nat.eqb_refl. discriminate.
    + intros id H. unfold has_id, get_element_key_by_id, st_id_to_key in H. rewrite I3 in H. rewrite ids_in_eq. unfold e_id in *. cbn in H.
      destruct (attribs_id (e_attribs c)) as [i|] eqn:EI.
      * rewrite smap_get_insert in H. destruct (String.eqb_spec id i) as [->|NS]; [right; left; reflexivity|]. destruct (G1 _ H) as [Q|Q]; [auto|]. right. apply in_app_iff. auto.
      * destruct (G1 _ H) as [Q|Q]; auto.
Qed.

Lemma all_adds_well e : adds_well e.
Proof.
  induction e as [e IH] using elem_ind. intros fuel d d1 l ks H NE ND NI.
  assert (NIT : new_items (e_data e)) by (inversion NE; split; [|split]; assumption).
  assert (NDD : NoDup (ids_data (e_data e))). { rewrite ids_in_eq in ND. apply NoDup_app_inv in ND. tauto. }
  assert (NID : forall id, In id (ids_data (e_data e)) -> ~ has_id d id). { intros id I. apply NI. rewrite ids_in_eq, in_app_iff. auto. }
  clear NE ND NI. revert d l ks H NDD NID. induction (e_data e) as [|x r IHr]; intros d l ks H ND NI.
  - cbn in H. inversion H; subst. split; cbn; auto; [constructor|intros c []|]. intros id Q. left. exact Q.
  - inversion IH as [|x' r' HX HR]; subst. destruct (new_items_cons _ _ NIT) as (NR & NX). specialize (IHr HR NR). destruct x; cbn [add_data] in H; try contradiction.
    + apply sbind_ok in H. destruct H as (d2 & y & A & H). inversion H; subst; clear H. destruct y as [l' ks']. destruct (IHr _ _ _ A ND NI) as [F1 L1 O1 P1 N1 W1 G1].
      cbn [fst snd]. split; auto. split; [reflexivity|exact P1].
    + apply sbind_ok in H. destruct H as (d2 & y & A & H). inversion H; subst; clear H. destruct y as [l' ks']. destruct (IHr _ _ _ A ND NI) as [F1 L1 O1 P1 N1 W1 G1].
      cbn [fst snd]. split; auto. split; [reflexivity|exact P1].
    + apply sbind_ok in H. destruct H as (dA & z & A & H). apply sbind_ok in H. destruct H as (dB & ck & B & H). apply sbind_ok in H. destruct H as (dC & u & C & H).
      apply sbind_ok in H. destruct H as (dD & w & D & H). inversion H; subst; clear H. destruct u. destruct w as [l' ks'].
      destruct (add_children_data _ _ _ _ _ A) as (lc & kc & A1 & A2 & A3). rewrite A2 in B. rewrite A3 in C. cbn [ids_data] in ND, NI.
      apply NoDup_app_inv in ND. destruct ND as (NDc & NDr & DIS).
      destruct (add_one fuel d e0 dA lc kc None dB ck dC HX A1 NX NDc) as (EK & LC & FC & OC & RC & PC & XC & GC); auto.
      { intros id I. apply NI, in_app_iff. auto. }
      destruct (IHr _ _ _ D NDr) as [F1 L1 O1 P1 N1 W1 G1].
      { intros id I HI. destruct (GC _ HI) as [Q|Q]; [apply (NI id); [apply in_app_iff; auto|exact Q]|]. apply (DIS _ Q I). }
      assert (MO : mono (sh_len d) dC d1). { intros j s JN G. exists s. rewrite O1 by (eapply sh_lt, G). auto. }
      assert (CK : ck < sh_len dC). { rewrite EK, LC, size_eq. lia. }
      cbn [fst snd]. split.
      * auto.
      * rewrite L1, LC. cbn [size_data]. lia.
      * intros j J. rewrite O1 by lia. apply OC, J.
      * cbn [pre]. split; [eapply rb_mono; eassumption|]. eapply pre_impl; [|exact P1]. intros c0 k0. apply rb_weaken. lia.
      * cbn. constructor; [|exact N1]. intros I. destruct (W1 _ I) as (Q & _). lia.
      * intros c I. cbn in I. destruct I as [<-|I].
        -- split; [lia|]. unfold spar. rewrite O1 by exact CK. split; [exact XC|exact PC].
        -- destruct (W1 _ I) as (Q1 & Q2). split; [lia|exact Q2].
      * intros id HI. cbn [ids_data]. rewrite in_app_iff. destruct (G1 _ HI) as [Q|Q]; [|auto]. destruct (GC _ Q) as [Q'|Q']; auto.
Qed.

(* ---------------------------------------------------------------- add_element_to *)
Definition with_child (k : nat) (s : shape) : shape := mkSh (s_type s) (s_parent s) (s_content s ++ [DElement k]).
Lemma above_parent m a p : spar m p = None -> above m a p -> a = p.
Proof. intros H A. destruct A as [|x b E A]; [reflexivity|congruence]. Qed.
(* attaching an element that has no parent *)
Lemma attach_parentless d p c d' : p <> c -> parent_of d c = None -> attach_element d p c = (d', Ok tt) ->
  sh d p <> None /\ sh d c <> None /\
  (forall j, sh d' j = option_map (fun s => mkSh (s_type s) (if Nat.eqb j c then Some p else s_parent s) (s_content s ++ if Nat.eqb j p then [DElement c] else [])) (sh d j)) /\
  sh_len d' = sh_len d /\ st_index (doc_elements d') = st_index (doc_elements d).
Proof.
  intros NE PC. unfold attach_element. destruct (get_elementdata d p) as [pe|] eqn:GP; [|discriminate].
  destruct (get_elementdata d c) as [ce|] eqn:GC; [|discriminate]. unfold parent_of in PC. rewrite GC in PC. cbn in PC. rewrite PC. intros H. injection H as <-.
  unfold sh at 1 2. rewrite GP, GC. split; [discriminate|]. split; [discriminate|]. rewrite !upd_len, !upd_index. split; [|auto].
  intros j. unfold sh. rewrite !get_upd_element. destruct (Nat.eqb_spec j p) as [->|NP].
  - destruct (Nat.eqb_spec p c); [contradiction|]. rewrite GP. cbn. unfold shape_of, content. cbn. rewrite filter_app. reflexivity.
  - destruct (Nat.eqb_spec j c) as [->|NC]; [rewrite GC; cbn; unfold shape_of, content; cbn; rewrite app_nil_r; reflexivity|].
    destruct (get_elementdata d j) as [x|]; [|reflexivity]. cbn. rewrite app_nil_r. reflexivity.
Qed.
Lemma attach_new_forest d dC dD p k : forest d -> forest dC -> p < sh_len d -> sh_len d <= k -> (forall j, j < sh_len d -> sh dC j = sh d j) ->
  spar (sh dC) k = None -> sh dC k <> None -> attach_element dC p k = (dD, Ok tt) -> forest dD.
Proof.
  intros F FC PL KL OC PC XC D. assert (KP : p <> k) by lia. rewrite sh_parent in PC.
  destruct (attach_parentless dC p k dD KP PC D) as (XP & _ & SD & LD & ID). pose proof FC as [LK AC DE BO].
  destruct (attach_get dC p k dD LK D) as (_ & _ & G & _ & _). pose proof (moved_sh _ _ _ _ G) as SM. split.
  - eapply linked_move; [exact SM|exact LK|exact XC|]. intros q Q. inversion Q; subst. exact XP.
  - eapply acyc_move; [exact SM| |exact AC]. intros q Q AB. inversion Q; subst q.
    (* p is an old element, and no old element is below the new one *)
    assert (OLD : forall y, above (sh dC) k y -> y < sh_len d -> False).
    { clear - F OC KL. intros y Y. induction Y as [|x b Q AB IH]; intros J; [lia|].
      unfold spar in Q. rewrite OC in Q by exact J. apply IH. destruct F as [(L1 & L2) _ _ _].
      assert (C1 : In x (skids (sh d) b)). { apply (count_occ_In Nat.eq_dec). rewrite L1. unfold spar. rewrite Q. cbn. rewrite Nat.eqb_refl. cbn. lia. }
      unfold skids in C1. destruct (sh d b) as [sb|] eqn:GB; [|destruct C1]. apply sh_lt in GB. exact GB. }
    apply (OLD p AB PL).
  - intros j J. rewrite LD in J. rewrite SD. specialize (DE j J). destruct (sh dC j); [discriminate|congruence].
  - intros j s x0. rewrite SD. destruct (sh dC j) as [s'|] eqn:Q; [|discriminate]. cbn. intros H. inversion H; subst. cbn.
    rewrite in_app_iff. intros [I|I]; [eapply BO; [exact Q|apply I]|]. destruct (Nat.eqb j p); [|destruct I]. destruct I as [I|[]]. discriminate.
Qed.
Lemma add_element_to_tree fuel d p e d1 k : p < sh_len d -> fresh_for d e -> add_element_to fuel d p e = (d1, Ok k) ->
  k = sh_len d + size_data (e_data e) /\ sh_len d1 = sh_len d + size e /\ renders d1 k e /\ parent_of d1 k = Some p /\
  (forall j, j < sh_len d -> sh d1 j = option_map (if Nat.eqb j p then with_child k else fun s => s) (sh d j)) /\ ids_grow d d1 (ids_in e) /\ (forest d -> forest d1).
Proof.
  intros PL (NE & ND & NI) H. unfold add_element_to in H. apply sbind_ok in H. destruct H as (dA & x & A & H).
  apply sbind_ok in H. destruct H as (dB & ck & B & H). apply sbind_ok in H. destruct H as (dC & u & C & H).
  apply sbind_ok in H. destruct H as (dD & v & D & H). apply sbind_ok in H. destruct H as (dE & w & E & H). inversion H; subst; clear H.
  destruct u, v. destruct (add_children_data _ _ _ _ _ A) as (lc & kc & A1 & A2 & A3). rewrite A2 in B. rewrite A3 in C.
  assert (B' : store_add dA (e_with_data e lc) (Some p) = (dB, Ok k)).
  { unfold map_err in B. destruct (store_add dA (e_with_data e lc) (Some p)) as [s [a| | |]]; try discriminate; exact B. }
  destruct (add_one fuel d e dA lc kc (Some p) dB k dC (all_adds_well e) A1 NE ND) as (EK & LC & FC & OC & RC & PC & XC & GC); [|exact B'|exact C|].
  { intros id I. apply not_has_id, NI, I. }
  assert (KP : p <> k) by lia. rewrite sh_parent in PC.
  destruct (attach_parentless dC p k dD KP PC D) as (XP & _ & SD & LD & ID).
  pose proof (post_add_sh fuel dD k None) as PS. rewrite E in PS. cbn [fst] in PS. pose proof PS as (S5 & L5 & I5).
  split; [exact EK|]. split; [congruence|].
  assert (PK : parent_of d1 k = Some p).
  { rewrite <- sh_parent. unfold spar. rewrite S5, SD. destruct (sh dC k) as [s|] eqn:Q; [|congruence]. cbn. rewrite Nat.eqb_refl. reflexivity. }
  split; [|split; [exact PK|split; [|split]]].
  - apply (rb_renders (sh_len d)). eapply rb_mono; [|exact RC]. intros j s JN Q. rewrite S5, SD, Q. cbn. eexists. split; [reflexivity|]. cbn.
    destruct (Nat.eqb_spec j p); [lia|]. rewrite app_nil_r. split; [reflexivity|]. split; [reflexivity|]. intros SP. destruct (Nat.eqb_spec j k) as [->|]; [|reflexivity].
    rewrite <- sh_parent in PC. unfold spar in PC. rewrite Q in PC. contradiction.
  - intros j J. rewrite S5, SD, OC by exact J. destruct (sh d j) as [s|]; [|reflexivity]. cbn.
    replace (Nat.eqb j k) with false by (symmetry; apply Nat.eqb_neq; lia). unfold with_child. destruct (Nat.eqb j p); [reflexivity|]. rewrite app_nil_r. destruct s; reflexivity.
  - intros id HI. apply GC. rewrite <- (has_id_index dC d1 id); [exact HI|]. rewrite I5, ID. reflexivity.
  - intros F. eapply forest_same; [exact PS|]. apply (attach_new_forest d dC dD p k); auto; [lia|]. rewrite sh_parent. exact PC.
Qed.
