(* The structure of a document: which element is whose parent and what it contains. How the operations change it,
   and that careful use keeps it a forest in which parents and children agree. *)
From Coq Require Import String List Bool Arith NArith Lia.
From Verif Require Import Base BaseFacts Types TypesFacts SpecTable Attrib AttribFacts Element Store StoreFacts Metadata Document Select DocOps Xml Parser History Spec FrameFacts InvFacts DocFacts StoreThms EncodeFacts.
Import ListNotations.
Open Scope list_scope.

(* ---------------------------------------------------------------- shapes *)
Record shape : Type := mkSh { s_type : ElementType; s_parent : option nat; s_content : list datatype }.
Definition shape_of (e : elementdata) : shape := mkSh (e_type e) (e_parent e) (content e).
Definition smap_ := nat -> option shape.
Definition spar (m : smap_) (c : nat) : option nat := obind (m c) s_parent.
Definition skids (m : smap_) (p : nat) : list nat := match m p with Some s => child_keys (s_content s) | None => [] end.
Definition sh (d : document) (k : nat) : option shape := option_map shape_of (get_elementdata d k).
Definition sh_len (d : document) : nat := st_len (doc_elements d).

Lemma child_keys_app a b : child_keys (a ++ b) = child_keys a ++ child_keys b.
Proof. apply flat_map_app. Qed.
Lemma child_keys_content l : child_keys (filter (fun x => negb (is_spanref x)) l) = child_keys l.
Proof. induction l as [|x l IH]; [reflexivity|]. unfold child_keys in *. destruct x; cbn; rewrite ?IH; reflexivity. Qed.
Lemma in_child_keys l c : In c (child_keys l) <-> In (DElement c) l.
Proof.
  unfold child_keys. rewrite in_flat_map. split.
  - intros (x & I & J). destruct x; try destruct J as [->|[]]; try destruct J. exact I.
  - intros I. exists (DElement c). split; [exact I|left; reflexivity].
Qed.
Lemma sh_parent d k : spar (sh d) k = parent_of d k.
Proof. unfold spar, sh, parent_of. destruct (get_elementdata d k); reflexivity. Qed.
Lemma sh_kids d k : skids (sh d) k = children_of d k.
Proof. unfold skids, sh, children_of. destruct (get_elementdata d k) as [e|]; [|reflexivity]. cbn. apply child_keys_content. Qed.

(* ---------------------------------------------------------------- links, abstractly *)
Definition on (b : bool) : nat := if b then 1 else 0.
Definition linkedX (m : smap_) (X : nat -> nat -> nat) : Prop :=
  (forall p c, count_occ Nat.eq_dec (skids m p) c = on (opt_nat_eqb (spar m c) (Some p)) + X p c) /\
  (forall p c, In c (skids m p) -> m c <> None).
Definition none (p c : nat) : nat := 0.
Definition pend (q : nat) (ks : list nat) (p c : nat) : nat := on (Nat.eqb p q && mem_nat c ks).
Definition linked (m : smap_) : Prop := linkedX m none.
Definition acyc (m : smap_) : Prop := forall k, Acc (fun p c => spar m c = Some p) k.

Lemma opt_nat_eqb_eq a b : opt_nat_eqb a b = true <-> a = b.
Proof. destruct a, b; cbn; try rewrite Nat.eqb_eq; split; congruence. Qed.
Lemma mem_nat_spec x l : mem_nat x l = true <-> In x l.
Proof. unfold mem_nat. rewrite existsb_exists. split; [intros (y & I & E); apply Nat.eqb_eq in E; subst; exact I|intros I; exists x; rewrite Nat.eqb_refl; auto]. Qed.
Lemma mem_nat_false x l : mem_nat x l = false <-> ~ In x l.
Proof. rewrite <- mem_nat_spec. destruct (mem_nat x l); split; congruence. Qed.
Lemma count_nodup l c : NoDup l -> count_occ Nat.eq_dec l c = on (mem_nat c l).
Proof.
  intros N. destruct (mem_nat c l) eqn:M; cbn.
  - apply mem_nat_spec in M. apply NoDup_count_occ'; assumption.
  - apply mem_nat_false in M. apply count_occ_not_In, M.
Qed.
Lemma spar_some m c p : spar m c = Some p -> m c <> None.
Proof. unfold spar. destruct (m c); [discriminate|discriminate]. Qed.

Lemma linkedX_ext m m' X X' : (forall k, m' k = m k) -> (forall p c, X' p c = X p c) -> linkedX m X -> linkedX m' X'.
Proof.
  intros E EX (A & B). split.
  - intros p c. specialize (A p c). unfold skids, spar in *. rewrite !E, EX. exact A.
  - intros p c. specialize (B p c). unfold skids in *. rewrite !E. exact B.
Qed.
Lemma acyc_ext m m' : (forall k, spar m' k = spar m k) -> acyc m -> acyc m'.
Proof. intros E A k. induction (A k) as [k _ IH]. constructor. intros p H. apply IH. rewrite <- E. exact H. Qed.

(* a new element without parent; its listed children wait for their parent *)
Lemma linked_new m m' n s : m n = None -> (forall j, m' j = if Nat.eqb j n then Some s else m j) -> linked m -> s_parent s = None ->
  NoDup (child_keys (s_content s)) -> (forall c, In c (child_keys (s_content s)) -> m c <> None) ->
  linkedX m' (pend n (child_keys (s_content s))).
Proof.
  intros MN E (A & B) SP ND EX. set (ks := child_keys (s_content s)) in *.
  assert (P : forall c, spar m' c = spar m c).
  { intros c. unfold spar. rewrite E. destruct (Nat.eqb_spec c n) as [->|]; [|reflexivity]. rewrite MN. cbn. exact SP. }
  split.
  - intros p c. rewrite P. unfold skids, pend. rewrite E. destruct (Nat.eqb_spec p n) as [->|NE].
    + fold ks. rewrite (count_nodup _ _ ND). cbn [andb]. specialize (A n c). unfold skids in A. rewrite MN in A. cbn in A. unfold none in A. lia.
    + cbn. specialize (A p c). unfold none in A. exact A.
  - intros p c. unfold skids. rewrite !E. destruct (Nat.eqb_spec p n) as [->|NE].
    + fold ks. intros I. destruct (Nat.eqb_spec c n); [discriminate|]. apply EX, I.
    + intros I. destruct (Nat.eqb_spec c n); [discriminate|]. apply (B p), I.
Qed.
Lemma acyc_new m m' n s : m n = None -> (forall j, m' j = if Nat.eqb j n then Some s else m j) -> s_parent s = None -> acyc m -> acyc m'.
Proof.
  intros MN E SP. apply acyc_ext. intros c. unfold spar. rewrite E. destruct (Nat.eqb_spec c n) as [->|]; [|reflexivity]. rewrite MN. cbn. exact SP.
Qed.
(* the children get their parent *)
Definition s_with_parent (q : nat) (s : shape) : shape := mkSh (s_type s) (Some q) (s_content s).
Definition adopt (m : smap_) (q : nat) (ks : list nat) (j : nat) : option shape :=
  if mem_nat j ks then option_map (s_with_parent q) (m j) else m j.
Lemma adopt_kids m m' q ks p : (forall j, m' j = adopt m q ks j) -> skids m' p = skids m p.
Proof. intros E. unfold skids. rewrite E. unfold adopt. destruct (mem_nat p ks); [|reflexivity]. destruct (m p); reflexivity. Qed.
Lemma linked_adopt m m' q ks : (forall j, m' j = adopt m q ks j) -> linkedX m (pend q ks) ->
  (forall c, In c ks -> m c <> None /\ spar m c = None) -> linked m'.
Proof.
  intros E (A & B) H. split.
  - intros p c. rewrite (adopt_kids m m' q ks p E), A. unfold pend, none, spar in *. rewrite E. unfold adopt. destruct (mem_nat c ks) eqn:M.
    + apply mem_nat_spec in M. destruct (H c M) as (EX & NP). rewrite NP. cbn. destruct (m c); [|congruence]. cbn. rewrite andb_true_r, Nat.eqb_sym. lia.
    + rewrite andb_false_r. reflexivity.
  - intros p c. rewrite (adopt_kids m m' q ks p E). intros I. specialize (B _ _ I). rewrite E. unfold adopt. destruct (mem_nat c ks); [|exact B]. destruct (m c); [discriminate|congruence].
Qed.
Lemma acyc_adopt m m' q ks : (forall j, m' j = adopt m q ks j) -> ~ In q ks -> spar m q = None -> acyc m -> acyc m'.
Proof.
  intros E NQ PQ A. assert (AQ : Acc (fun p c => spar m' c = Some p) q).
  { constructor. intros p H. unfold spar in *. rewrite E in H. unfold adopt in H. apply mem_nat_false in NQ. rewrite NQ in H. congruence. }
  intros k. induction (A k) as [k _ IH]. constructor. intros p H. unfold spar in H. rewrite E in H. unfold adopt in H. destruct (mem_nat k ks) eqn:M.
  - destruct (m k); [|discriminate]. cbn in H. inversion H; subst. exact AQ.
  - apply IH. exact H.
Qed.
(* one element moves *)
Definition unlist_all (c : nat) (l : list datatype) : list datatype := filter (fun x => negb (is_elem c x)) l.
Definition move (m : smap_) (c : nat) (np : option nat) (j : nat) : option shape :=
  option_map (fun s => mkSh (s_type s) (if Nat.eqb j c then np else s_parent s)
    (unlist_all c (s_content s) ++ (if opt_nat_eqb np (Some j) then [DElement c] else []))) (m j).
Lemma unlist_kids c l : child_keys (unlist_all c l) = remove Nat.eq_dec c (child_keys l).
Proof.
  induction l as [|x l IH]; [reflexivity|]. destruct x; cbn [unlist_all filter is_elem negb child_keys flat_map app]; try exact IH.
  cbn [remove]. destruct (Nat.eqb_spec k c) as [->|NE]; cbn [negb].
  - destruct (Nat.eq_dec c c); [exact IH|contradiction].
  - destruct (Nat.eq_dec c k); [congruence|]. cbn [child_keys flat_map app]. f_equal. exact IH.
Qed.
Lemma unlist_none c l : ~ In c (child_keys l) -> unlist_all c l = l.
Proof.
  intros H. induction l as [|x l IH]; [reflexivity|]. cbn [unlist_all filter]. unfold unlist_all in IH. destruct x; cbn [is_elem negb]; try (rewrite IH; [reflexivity|exact H]).
  destruct (Nat.eqb_spec k c) as [->|NE]; cbn [negb]; [exfalso; apply H; left; reflexivity|]. rewrite IH; [reflexivity|]. intros J. apply H. right. exact J.
Qed.
Lemma count_remove c l x : count_occ Nat.eq_dec (remove Nat.eq_dec c l) x = if Nat.eqb x c then 0 else count_occ Nat.eq_dec l x.
Proof.
  induction l as [|y l IH]; cbn; [destruct (Nat.eqb x c); reflexivity|].
  destruct (Nat.eq_dec c y) as [E|NE].
  - subst y. rewrite IH. destruct (Nat.eqb_spec x c) as [E|NX]; [reflexivity|]. destruct (Nat.eq_dec c x); [congruence|reflexivity].
  - cbn. rewrite IH. destruct (Nat.eqb_spec x c) as [E|NX]; [destruct (Nat.eq_dec y x); [congruence|reflexivity]|reflexivity].
Qed.
Lemma linked_move m m' c np : (forall j, m' j = move m c np j) -> linked m -> m c <> None -> (forall p, np = Some p -> m p <> None) -> linked m'.
Proof.
  intros E (A & B) MC MP. assert (K : forall p, skids m' p = remove Nat.eq_dec c (skids m p) ++ if opt_nat_eqb np (Some p) then [c] else []).
  { intros p. unfold skids. rewrite E. unfold move. destruct (m p) as [s|] eqn:G; cbn.
    - rewrite child_keys_app, unlist_kids. destruct (opt_nat_eqb np (Some p)); reflexivity.
    - destruct (opt_nat_eqb np (Some p)) eqn:Q; [|reflexivity]. apply opt_nat_eqb_eq in Q. destruct (MP p Q G). }
  assert (S : forall x, spar m' x = if Nat.eqb x c then np else spar m x).
  { intros x. unfold spar. rewrite E. unfold move. destruct (m x) eqn:G; cbn; [reflexivity|]. destruct (Nat.eqb_spec x c) as [->|]; [congruence|reflexivity]. }
  assert (N : forall x, m' x = None <-> m x = None).
  { intros x. rewrite E. unfold move. destruct (m x); cbn; split; congruence. }
  split.
  - intros p x. rewrite K, S, count_occ_app, count_remove. unfold none. rewrite Nat.add_0_r. destruct (Nat.eqb_spec x c) as [->|NE].
    + destruct (opt_nat_eqb np (Some p)); cbn; [|reflexivity]. destruct (Nat.eq_dec c c); [reflexivity|contradiction].
    + rewrite A. unfold none. destruct (opt_nat_eqb np (Some p)); cbn; [|lia]. destruct (Nat.eq_dec c x); [congruence|lia].
  - intros p x. rewrite K, in_app_iff. intros I. rewrite N. destruct I as [I|I].
    + apply in_remove in I. apply (B p). tauto.
    + destruct (opt_nat_eqb np (Some p)); [|destruct I]. destruct I as [<-|[]]. exact MC.
Qed.
(* ancestors in a map; [above m a x]: a is x or an ancestor of x *)
Inductive above (m : smap_) (a : nat) : nat -> Prop :=
  | ab_self : above m a a
  | ab_up x b : spar m x = Some b -> above m a b -> above m a x.
Lemma acyc_move m m' c np : (forall j, m' j = move m c np j) -> (forall p, np = Some p -> ~ above m c p) -> acyc m -> acyc m'.
Proof.
  intros E NA A. assert (S : forall x p, spar m' x = Some p -> x = c /\ np = Some p \/ x <> c /\ spar m x = Some p).
  { intros x p. unfold spar. rewrite E. unfold move. destruct (m x); cbn; [|discriminate]. destruct (Nat.eqb_spec x c); auto. }
  assert (AP : forall p, ~ above m c p -> Acc (fun p c => spar m' c = Some p) p).
  { intros p. induction (A p) as [p _ IH]. intros H. constructor. intros q Q. destruct (S _ _ Q) as [(-> & _)|(NE & Q')].
    - destruct H. constructor.
    - apply IH; [exact Q'|]. intros AB. apply H. eapply ab_up; eassumption. }
  assert (AC : Acc (fun p c => spar m' c = Some p) c).
  { constructor. intros p Q. destruct (S _ _ Q) as [(_ & NP)|(NE & _)]; [|congruence]. apply AP, NA, NP. }
  intros k. induction (A k) as [k _ IH]. constructor. intros p Q. destruct (S _ _ Q) as [(-> & NP)|(NE & Q')].
  - apply AP, NA, NP.
  - apply IH, Q'.
Qed.

(* ---------------------------------------------------------------- what the operations do to shapes *)
Definition same_sh (d d' : document) : Prop :=
  (forall k, sh d' k = sh d k) /\ sh_len d' = sh_len d /\ st_index (doc_elements d') = st_index (doc_elements d).
Lemma same_sh_refl d : same_sh d d.
Proof. split; [|split]; reflexivity. Qed.
Lemma same_sh_trans a b c : same_sh a b -> same_sh b c -> same_sh a c.
Proof. intros (A & B & C) (A' & B' & C'). split; [|split]; [intros k; rewrite A'; apply A|congruence|congruence]. Qed.
Lemma same_sh_elements d d' : doc_elements d' = doc_elements d -> same_sh d d'.
Proof. intros E. unfold same_sh, sh, sh_len, get_elementdata. rewrite E. auto. Qed.
Lemma get_upd_element d k f j : get_elementdata (upd_element d k f) j = if Nat.eqb j k then option_map f (get_elementdata d k) else get_elementdata d j.
Proof.
  unfold upd_element. destruct (get_elementdata d k) as [e|] eqn:G; cbn.
  - unfold get_elementdata. docs_g. destruct (Nat.eqb_spec j k) as [->|NE]; [apply (st_get_set_same _ _ _ _ G)|apply st_get_set_other, NE].
  - destruct (Nat.eqb_spec j k) as [->|NE]; [exact G|reflexivity].
Qed.
Lemma upd_len d k f : sh_len (upd_element d k f) = sh_len d.
Proof. unfold sh_len, upd_element. destruct (get_elementdata d k); [|reflexivity]. docs_g. apply st_set_len. Qed.
Lemma upd_index d k f : st_index (doc_elements (upd_element d k f)) = st_index (doc_elements d).
Proof. unfold upd_element. destruct (get_elementdata d k); reflexivity. Qed.
Lemma sh_upd d k f j : sh (upd_element d k f) j = if Nat.eqb j k then option_map (fun e => shape_of (f e)) (get_elementdata d k) else sh d j.
Proof. unfold sh. rewrite get_upd_element. destruct (Nat.eqb j k); [|reflexivity]. destruct (get_elementdata d k); reflexivity. Qed.
Lemma upd_same d k f : (forall e, shape_of (f e) = shape_of e) -> same_sh d (upd_element d k f).
Proof.
  intros H. split; [|split; [apply upd_len|apply upd_index]]. intros j. rewrite sh_upd. destruct (Nat.eqb_spec j k) as [->|]; [|reflexivity].
  unfold sh. destruct (get_elementdata d k); [|reflexivity]. cbn. rewrite H. reflexivity.
Qed.
Lemma post_add_sh fuel d k st : same_sh d (fst (post_add fuel d k st)).
Proof.
  unfold post_add. destruct (get_elementdata d k) as [e|]; [|apply same_sh_refl].
  assert (L : same_sh d (fst (if group_contains EG_Layer (e_type e) && negb (e_has_attrib e AB_SET)
       then let! d, dk := (d, layer_declaration fuel d e) in
            match dk with
            | Some dk => (upd_element d k (fun x => e_with_attribs x [A_DeclarationRef dk]), Ok tt)
            | None => (d, Ok tt)
            end
       else (d, Ok tt)))).
  { destruct (group_contains EG_Layer (e_type e) && negb (e_has_attrib e AB_SET)); [|apply same_sh_refl].
    destruct (layer_declaration fuel d e) as [[dk|]| | |]; cbn [sbind fst]; try apply same_sh_refl. apply upd_same. reflexivity. }
  destruct (e_type e); try exact L. clear L. unfold post_add_wref. destruct (attribs_last_idref (e_attribs e) None) as [id|]; [|apply same_sh_refl].
  match goal with |- same_sh d (fst (sbind (d, ?r) _)) => destruct r as [[sk|]| | |]; cbn [sbind fst]; try apply same_sh_refl end.
  destruct (key_by_id d id) as [[tk|]| | |]; cbn [sbind fst]; try apply same_sh_refl. apply upd_same.
  intros x. unfold shape_of, content. cbn. rewrite filter_app. cbn. rewrite app_nil_r. reflexivity.
Qed.
Lemma link_children_sh fuel q ks : forall d d', link_children fuel d q ks = (d', Ok tt) ->
  (forall j, sh d' j = adopt (sh d) q ks j) /\ sh_len d' = sh_len d /\ st_index (doc_elements d') = st_index (doc_elements d).
Proof.
  induction ks as [|k ks IH]; intros d d' H; cbn in H.
  - inversion H; subst. split; [|split]; reflexivity.
  - apply sbind_ok in H. destruct H as (d2 & u & P & H). pose proof (post_add_sh fuel (upd_element d k (e_set_parent (Some q))) k None) as S. rewrite P in S. cbn [fst] in S.
    destruct S as (S1 & S2 & S3). destruct (IH _ _ H) as (I1 & I2 & I3). rewrite upd_len in S2. rewrite upd_index in S3.
    split; [|split; congruence]. intros j. rewrite I1. unfold adopt. cbn [mem_nat existsb]. fold (mem_nat j ks). rewrite S1, sh_upd.
    unfold sh. destruct (Nat.eqb_spec j k) as [->|NE]; cbn [orb]; [|reflexivity]. destruct (get_elementdata d k); cbn; destruct (mem_nat k ks); reflexivity.
Qed.
Lemma store_add_sh d e ctx d1 k : new_id d e -> store_add d e ctx = (d1, Ok k) ->
  k = sh_len d /\ sh_len d1 = S (sh_len d) /\ (forall j, sh d1 j = if Nat.eqb j k then Some (shape_of e) else sh d j) /\
  st_index (doc_elements d1) = match e_id e with Some id => smap_insert id k (st_index (doc_elements d)) | None => st_index (doc_elements d) end.
Proof.
  intros N H. pose proof (store_add_cases d e ctx) as C. rewrite H in C. cbn [fst snd] in C.
  inversion C as [d' e1 id k' E I J|d' e1 s E N' B IT IX|d' e1 E N' B|d' r E NR Q R1]; subst.
  - rewrite (N _ I) in J. discriminate.
  - apply encode_value in E. destruct E as (T & DA & _ & P & _). unfold sh_len. docs_g.
    split; [reflexivity|]. split; [unfold st_len; rewrite IT, app_length; cbn; lia|]. split; [|exact IX].
    intros j. unfold sh, get_elementdata. docs_g. rewrite (st_get_snoc _ _ _ _ IT). destruct (Nat.eqb j _); [|reflexivity].
    cbn. f_equal. unfold shape_of, content. cbn. congruence.
  - destruct r; [destruct (NR a eq_refl)| | |]; discriminate.
Qed.
(* any other result leaves the elements as they are *)
Lemma store_add_fail_sh d e ctx : (forall k, snd (store_add d e ctx) <> Ok k) -> same_sh d (fst (store_add d e ctx)).
Proof.
  intros H. pose proof (store_add_cases d e ctx) as C. destruct (store_add d e ctx) as [d1 r]. cbn [fst snd] in *.
  inversion C as [d' e1 id k' E I J|d' e1 s E N' B IT IX|d' e1 E N' B|d' r' E NR Q R1]; subst; try (destruct (H _ eq_refl)).
  - apply same_sh_elements. pose proof (encode_elements d e ctx) as EE. rewrite E in EE. exact EE.
  - apply same_sh_elements. pose proof (encode_elements d e ctx) as EE. rewrite E in EE. exact EE.
Qed.

(* attach and detach: the child leaves its old place and, for attach, becomes the last child of the new parent *)
Lemma unlist_filter c l i : position (is_elem c) l = Some i -> count_occ Nat.eq_dec (child_keys l) c = 1 -> remove_nth i l = unlist_all c l.
Proof.
  revert i. induction l as [|x l IH]; intros i P C; cbn in P; [discriminate|]. unfold unlist_all. cbn [filter]. destruct (is_elem c x) eqn:E.
  - inversion P; subst. cbn [remove_nth negb]. destruct x; try discriminate. cbn in E. apply Nat.eqb_eq in E. subst.
    cbn in C. destruct (Nat.eq_dec c c); [|contradiction]. inversion C as [C']. symmetry. apply unlist_none. rewrite (count_occ_not_In Nat.eq_dec). exact C'.
  - destruct (position (is_elem c) l) as [i'|] eqn:P'; [|discriminate]. inversion P; subst. cbn [remove_nth negb]. f_equal. apply IH; [reflexivity|].
    destruct x; try exact C. cbn in C, E. apply Nat.eqb_neq in E. destruct (Nat.eq_dec k c); [congruence|exact C].
Qed.
Lemma position_listed c l : In c (child_keys l) -> exists i, position (is_elem c) l = Some i.
Proof.
  intros I. induction l as [|x l IH]; [destruct I|]. cbn. destruct (is_elem c x) eqn:E; [eauto|]. destruct IH as (i & P).
  - destruct x; try exact I. destruct I as [<-|I]; [cbn in E; rewrite Nat.eqb_refl in E; discriminate|exact I].
  - rewrite P. cbn. eauto.
Qed.
Lemma content_remove c l i : position (is_elem c) l = Some i -> exists j,
  position (is_elem c) (filter (fun x => negb (is_spanref x)) l) = Some j /\
  filter (fun x => negb (is_spanref x)) (remove_nth i l) = remove_nth j (filter (fun x => negb (is_spanref x)) l).
Proof.
  revert i. induction l as [|x l IH]; intros i P; cbn in P; [discriminate|]. destruct (is_elem c x) eqn:E.
  - inversion P; subst. destruct x; try discriminate. exists 0. cbn. cbn in E. rewrite E. auto.
  - destruct (position (is_elem c) l) as [i'|] eqn:P'; [|discriminate]. inversion P; subst. destruct (IH _ eq_refl) as (j & J & R).
    destruct x; cbn [filter is_spanref negb remove_nth]; try (exists (S j); cbn [position]; rewrite E, J; cbn; rewrite R; auto; fail). exists j. auto.
Qed.
(* the exact effect on the stored element, when it lists the child at most once *)
Lemma e_unlist_data c e : count_occ Nat.eq_dec (child_keys (e_data e)) c <= 1 -> e_data (e_unlist c e) = unlist_all c (e_data e).
Proof.
  intros C. unfold e_unlist, e_index. destruct (position (is_elem c) (e_data e)) as [i|] eqn:P.
  - cbn. apply unlist_filter; [exact P|]. destruct (count_occ Nat.eq_dec (child_keys (e_data e)) c) as [|[|n]] eqn:Q; try lia.
    exfalso. rewrite <- (count_occ_not_In Nat.eq_dec) in Q. apply Q, in_child_keys. clear Q C.
    revert i P. induction (e_data e) as [|x l IH]; intros i P; cbn in P; [discriminate|]. destruct (is_elem c x) eqn:E.
    + destruct x; try discriminate. cbn in E. apply Nat.eqb_eq in E. subst. left. reflexivity.
    + destruct (position (is_elem c) l); [|discriminate]. right. eapply IH. reflexivity.
  - symmetry. apply unlist_none. intros I. destruct (position_listed _ _ I) as (i & Q). congruence.
Qed.
Lemma e_unlist_rest c e : e_type (e_unlist c e) = e_type e /\ e_attribs (e_unlist c e) = e_attribs e /\ e_key (e_unlist c e) = e_key e /\ e_parent (e_unlist c e) = e_parent e.
Proof. unfold e_unlist. destruct (e_index e c); cbn; auto. Qed.

(* the stored elements after a move *)
Definition moved (c : nat) (np : option nat) (k : nat) (x : elementdata) : elementdata :=
  mkElem (e_type x) (e_attribs x) (unlist_all c (e_data x) ++ (if opt_nat_eqb np (Some k) then [DElement c] else [])) (e_key x)
    (if Nat.eqb k c then np else e_parent x).
Lemma elem_eq a b : e_type a = e_type b -> e_attribs a = e_attribs b -> e_data a = e_data b -> e_key a = e_key b -> e_parent a = e_parent b -> a = b.
Proof. destruct a, b; cbn; intros; subst; reflexivity. Qed.
Lemma not_listed d k c x : linked (sh d) -> get_elementdata d k = Some x -> parent_of d c <> Some k -> unlist_all c (e_data x) = e_data x.
Proof.
  intros (A & _) G NP. apply unlist_none. intros I. apply (count_occ_In Nat.eq_dec) in I. specialize (A k c). rewrite sh_kids, sh_parent in A.
  unfold children_of in A. rewrite G in A. unfold none in A. destruct (opt_nat_eqb (parent_of d c) (Some k)) eqn:Q; [apply opt_nat_eqb_eq in Q; contradiction|]. cbn in A. lia.
Qed.
Lemma listed_once d k c x : linked (sh d) -> get_elementdata d k = Some x -> count_occ Nat.eq_dec (child_keys (e_data x)) c <= 1.
Proof.
  intros (A & _) G. specialize (A k c). rewrite sh_kids in A. unfold children_of in A. rewrite G in A. rewrite A. unfold none. destruct (opt_nat_eqb _ _); cbn; lia.
Qed.
Lemma is_elem_refl c : is_elem c (DElement c) = true.
Proof. cbn. apply Nat.eqb_refl. Qed.
Lemma position_app_l {A} (f : A -> bool) a b i : position f a = Some i -> position f (a ++ b) = Some i.
Proof. revert i. induction a as [|x a IH]; intros i; cbn; [discriminate|]. destruct (f x); [auto|]. destruct (position f a); [|discriminate]. intros H. rewrite (IH _ eq_refl). exact H. Qed.
Lemma remove_nth_app_l {A} (a b : list A) i : i < length a -> remove_nth i (a ++ b) = remove_nth i a ++ b.
Proof. revert i. induction a as [|x a IH]; intros i H; cbn in H; [lia|]. destruct i; [reflexivity|]. cbn. f_equal. apply IH. lia. Qed.
Lemma position_lt {A} (f : A -> bool) l i : position f l = Some i -> i < length l.
Proof. revert i. induction l as [|x l IH]; intros i; cbn; [discriminate|]. destruct (f x); [intros H; inversion H; lia|]. destruct (position f l); [|discriminate]. intros H; inversion H; subst. specialize (IH _ eq_refl). lia. Qed.

Lemma attach_get d p c d' : linked (sh d) -> attach_element d p c = (d', Ok tt) ->
  (exists pe, get_elementdata d p = Some pe) /\ (exists ce, get_elementdata d c = Some ce) /\
  (forall k, get_elementdata d' k = option_map (moved c (Some p) k) (get_elementdata d k)) /\
  sh_len d' = sh_len d /\ st_index (doc_elements d') = st_index (doc_elements d).
Proof.
  intros L. unfold attach_element. destruct (get_elementdata d p) as [pe|] eqn:GP; [|discriminate].
  destruct (get_elementdata d c) as [ce|] eqn:GC; [|discriminate]. intros H. injection H as <-.
  split; [eauto|]. split; [eauto|]. assert (PC : parent_of d c = e_parent ce) by (unfold parent_of; rewrite GC; reflexivity).
  set (d1 := upd_element d c (e_set_parent (Some p))). set (d2 := upd_element d1 p (fun e => e_push e (DElement c))).
  assert (G2 : forall k, get_elementdata d2 k = option_map (fun x => mkElem (e_type x) (e_attribs x) (e_data x ++ (if Nat.eqb k p then [DElement c] else [])) (e_key x) (if Nat.eqb k c then Some p else e_parent x)) (get_elementdata d k)).
  { intros k. unfold d2. rewrite get_upd_element. unfold d1. rewrite !get_upd_element. rewrite GC.
    destruct (Nat.eqb_spec k p) as [->|N1].
    - destruct (Nat.eqb_spec p c) as [E|N2].
      + subst c. rewrite GP in GC. injection GC as <-. rewrite GP. reflexivity.
      + rewrite GP. reflexivity.
    - destruct (Nat.eqb_spec k c) as [->|N2]; [rewrite GC|]; cbn [option_map]; [destruct ce; cbn; rewrite app_nil_r; reflexivity|].
      destruct (get_elementdata d k) as [x|]; [|reflexivity]. cbn. destruct x; cbn. rewrite app_nil_r. reflexivity. }
  assert (L2 : sh_len d2 = sh_len d) by (unfold d2, d1; rewrite !upd_len; reflexivity).
  assert (I2 : st_index (doc_elements d2) = st_index (doc_elements d)) by (unfold d2, d1; rewrite !upd_index; reflexivity).
  destruct (e_parent ce) as [o|] eqn:EO.
  - split; [|split; [rewrite upd_len; exact L2|rewrite upd_index; exact I2]]. intros k. rewrite get_upd_element, !G2.
    destruct (Nat.eqb_spec k o) as [->|NO].
    + destruct (get_elementdata d o) as [x|] eqn:GO; [|reflexivity]. cbn [option_map]. f_equal.
      set (y := mkElem _ _ _ _ _). destruct (e_unlist_rest c y) as (R1 & R2 & R3 & R4). apply elem_eq; rewrite ?R1, ?R2, ?R3, ?R4; try reflexivity.
      assert (LI : count_occ Nat.eq_dec (child_keys (e_data x)) c = 1).
      { destruct L as (A & _). specialize (A o c). rewrite sh_kids, sh_parent, PC in A. unfold children_of in A. rewrite GO in A. cbn in A. rewrite Nat.eqb_refl in A. exact A. }
      destruct (position_listed c (e_data x)) as (i & P). { apply (count_occ_In Nat.eq_dec). lia. }
      unfold e_unlist, e_index, y. cbn [e_data]. rewrite (position_app_l _ _ _ _ P). cbn. rewrite (remove_nth_app_l _ _ _ (position_lt _ _ _ P)), (unlist_filter _ _ _ P LI).
      rewrite (Nat.eqb_sym p o). reflexivity.
    + destruct (get_elementdata d k) as [x|] eqn:GK; [|reflexivity]. cbn [option_map]. f_equal. apply elem_eq; try reflexivity. cbn.
      rewrite (not_listed d k c x L GK), (Nat.eqb_sym p k); [reflexivity|]. rewrite PC. congruence.
  - split; [|auto]. intros k. rewrite G2. destruct (get_elementdata d k) as [x|] eqn:GK; [|reflexivity]. cbn [option_map]. f_equal. apply elem_eq; try reflexivity. cbn.
    rewrite (not_listed d k c x L GK), (Nat.eqb_sym p k); [reflexivity|]. rewrite PC. discriminate.
Qed.
Lemma detach_get d c d' : linked (sh d) -> detach_element d c = (d', Ok tt) ->
  (exists ce, get_elementdata d c = Some ce) /\
  (forall k, get_elementdata d' k = option_map (moved c None k) (get_elementdata d k)) /\
  sh_len d' = sh_len d /\ st_index (doc_elements d') = st_index (doc_elements d).
Proof.
  intros L. unfold detach_element. destruct (get_elementdata d c) as [ce|] eqn:GC; [|discriminate]. intros H. injection H as <-.
  split; [eauto|]. assert (PC : parent_of d c = e_parent ce) by (unfold parent_of; rewrite GC; reflexivity).
  set (d1 := upd_element d c (e_set_parent None)).
  assert (G1 : forall k, get_elementdata d1 k = option_map (fun x => mkElem (e_type x) (e_attribs x) (e_data x) (e_key x) (if Nat.eqb k c then None else e_parent x)) (get_elementdata d k)).
  { intros k. unfold d1. rewrite get_upd_element. destruct (Nat.eqb_spec k c) as [->|N1]; [reflexivity|]. destruct (get_elementdata d k) as [x|]; [|reflexivity]. destruct x; reflexivity. }
  assert (L1 : sh_len d1 = sh_len d) by (unfold d1; apply upd_len).
  assert (I1 : st_index (doc_elements d1) = st_index (doc_elements d)) by (unfold d1; apply upd_index).
  destruct (e_parent ce) as [o|] eqn:EO.
  - split; [|split; [rewrite upd_len; exact L1|rewrite upd_index; exact I1]]. intros k. rewrite get_upd_element, !G1.
    destruct (Nat.eqb_spec k o) as [->|NO].
    + destruct (get_elementdata d o) as [x|] eqn:GO; [|reflexivity]. cbn [option_map]. f_equal.
      set (y := mkElem _ _ _ _ _). destruct (e_unlist_rest c y) as (R1 & R2 & R3 & R4). apply elem_eq; rewrite ?R1, ?R2, ?R3, ?R4; try reflexivity.
      rewrite e_unlist_data by (apply (listed_once d o c x L GO)). cbn. rewrite app_nil_r. reflexivity.
    + destruct (get_elementdata d k) as [x|] eqn:GK; [|reflexivity]. cbn [option_map]. f_equal. apply elem_eq; try reflexivity. cbn.
      rewrite (not_listed d k c x L GK), app_nil_r; [reflexivity|]. rewrite PC. congruence.
  - split; [|auto]. intros k. rewrite G1. destruct (get_elementdata d k) as [x|] eqn:GK; [|reflexivity]. cbn [option_map]. f_equal. apply elem_eq; try reflexivity. cbn.
    rewrite (not_listed d k c x L GK), app_nil_r; [reflexivity|]. rewrite PC. discriminate.
Qed.
Lemma content_unlist c l : filter (fun x => negb (is_spanref x)) (unlist_all c l) = unlist_all c (filter (fun x => negb (is_spanref x)) l).
Proof. unfold unlist_all. induction l as [|x l IH]; [reflexivity|]. destruct x; cbn; rewrite ?IH; try reflexivity. destruct (Nat.eqb k c); cbn; rewrite ?IH; reflexivity. Qed.
Lemma moved_sh d d' c np : (forall k, get_elementdata d' k = option_map (moved c np k) (get_elementdata d k)) -> forall k, sh d' k = move (sh d) c np k.
Proof.
  intros H k. unfold sh, move. rewrite H. destruct (get_elementdata d k) as [x|]; [|reflexivity]. cbn. unfold shape_of, content. cbn. do 2 f_equal.
  rewrite filter_app, content_unlist. destruct (opt_nat_eqb np (Some k)); reflexivity.
Qed.
