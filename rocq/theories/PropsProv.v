(* Property C59: adding a processor with nested new subprocessors. *)
From Coq Require Import String List Bool Arith NArith Lia.
From Verif Require Import Base BaseFacts Types SpecTable Attrib Element Store StoreFacts Metadata Document Select DocOps Xml Parser History Spec FrameFacts InvFacts DocFacts StoreThms Examples EncodeFacts LinkFacts TreeFacts ForestFacts.
Import ListNotations.
Open Scope string_scope.
Open Scope list_scope.

(* ---------------------------------------------------------------- what is meant *)
(* the stored processor q has the values given in p *)
Record describes (q p : processor) : Prop := {
  de_id : pr_id q = pr_id p; de_name : pr_name q = pr_name p; de_type : pr_type q = pr_type p; de_version : pr_version q = pr_version p;
  de_folia_version : pr_folia_version q = pr_folia_version p; de_document_version : pr_document_version q = pr_document_version p;
  de_command : pr_command q = pr_command p; de_host : pr_host q = pr_host p; de_user : pr_user q = pr_user p;
  de_begin : pr_begin q = pr_begin p; de_end : pr_end q = pr_end p; de_src : pr_src q = pr_src p; de_format : pr_format q = pr_format p;
  de_resourcelink : pr_resourcelink q = pr_resourcelink p; de_metadata : pr_metadata q = pr_metadata p }.
(* the processor with key k, found under its ID, was made from p: it has the given parent, and its subprocessors, in order, were made from
   the subprocessors of p *)
Inductive made_from (d : document) : option nat -> nat -> processor -> Prop :=
  | made_proc par k p q : get_processor d k = Some q -> get_processor_key_by_id d (pr_id p) = Some k -> describes q p ->
      pr_key q = Some k -> pr_parent q = par -> Forall2 (made_from d (Some k)) (pr_processors q) (pr_pending p) -> made_from d par k p.
Fixpoint proc_ids (p : processor) : list string := pr_id p :: flat_map proc_ids (pr_pending p).
Fixpoint proc_size (p : processor) : nat := S (list_sum (map proc_size (pr_pending p))).
(* new processors, as Processor::new makes them: no subprocessors by key and no parent, at any depth *)
Definition brand_new : processor -> Prop := proc_all proc_fresh.
Definition procs_len (d : document) : nat := length (st_items (doc_procs d)).
(* only the processors differ *)
Definition only_procs (d d' : document) : Prop := d' = doc_with_procs d (doc_procs d').

(* ---------------------------------------------------------------- proof *)
Inductive made_at (d : document) (m : nat) : option nat -> nat -> processor -> Prop :=
  | made_at_proc par k p q : m <= k -> get_processor d k = Some q -> get_processor_key_by_id d (pr_id p) = Some k -> describes q p ->
      pr_key q = Some k -> pr_parent q = par -> Forall2 (made_at d m (Some k)) (pr_processors q) (pr_pending p) -> made_at d m par k p.
Fixpoint made_at_ind2 (d : document) (m : nat) (P : option nat -> nat -> processor -> Prop)
  (H : forall par k p q, m <= k -> get_processor d k = Some q -> get_processor_key_by_id d (pr_id p) = Some k -> describes q p ->
      pr_key q = Some k -> pr_parent q = par -> Forall2 (made_at d m (Some k)) (pr_processors q) (pr_pending p) -> Forall2 (P (Some k)) (pr_processors q) (pr_pending p) -> P par k p)
  par k p (M : made_at d m par k p) {struct M} : P par k p :=
  match M with
  | made_at_proc _ _ par k p q L G IX D K PA F =>
      H par k p q L G IX D K PA F
        ((fix go l1 l2 (F : Forall2 (made_at d m (Some k)) l1 l2) : Forall2 (P (Some k)) l1 l2 :=
            match F with
            | Forall2_nil _ => Forall2_nil _
            | Forall2_cons a b x r => Forall2_cons a b (made_at_ind2 d m P H (Some k) a b x) (go _ _ r)
            end) _ _ F)
  end.
Lemma made_at_from d m par k p : made_at d m par k p -> made_from d par k p.
Proof. intros M. induction M using made_at_ind2. econstructor; eassumption. Qed.
Record pgrow (d d' : document) (par : nat) (l : list nat) (n : nat) (ids : list string) : Prop := {
  pg_only : only_procs d d';
  pg_len : procs_len d' = n + procs_len d;
  pg_get : forall j q, get_processor d j = Some q -> get_processor d' j = Some (if Nat.eqb j par then pr_with_processors (pr_processors q ++ l) q else q);
  pg_id : forall id k, get_processor_key_by_id d id = Some k -> get_processor_key_by_id d' id = Some k;
  pg_new : forall id, get_processor_key_by_id d' id <> None -> get_processor_key_by_id d id <> None \/ In id ids }.
Lemma made_at_grow d d' m par k p par' l n ids : pgrow d d' par' l n ids -> par' < m -> made_at d m par k p -> made_at d' m par k p.
Proof.
  intros G L M. induction M as [par k p q LK GE ID D K PA _ F] using made_at_ind2. econstructor; try eassumption; [|apply (pg_id _ _ _ _ _ _ G), ID].
  rewrite (pg_get _ _ _ _ _ _ G _ _ GE). replace (Nat.eqb k par') with false; [reflexivity|]. symmetry. apply Nat.eqb_neq. lia.
Qed.
Lemma made_at_weaken d m m' par k p : m' <= m -> made_at d m par k p -> made_at d m' par k p.
Proof. intros L M. induction M using made_at_ind2. econstructor; try eassumption. lia. Qed.
Lemma proc_lt d k q : get_processor d k = Some q -> k < procs_len d.
Proof. apply st_get_lt. Qed.
Lemma only_refl d : only_procs d d.
Proof. destruct d; reflexivity. Qed.
Lemma only_trans a b c : only_procs a b -> only_procs b c -> only_procs a c.
Proof. unfold only_procs. intros -> ->. reflexivity. Qed.
(* one new processor *)
Lemma provenance_added d p : get_processor_key_by_id d (pr_id p) = None -> (N.of_nat (procs_len d) <= max_proc)%N ->
  exists d', add_provenance d p = (d', Ok (procs_len d)) /\ only_procs d d' /\ procs_len d' = S (procs_len d) /\
  (forall j, get_processor d' j = if Nat.eqb j (procs_len d) then Some (pr_assign_key (procs_len d) p) else get_processor d j) /\
  (forall id, get_processor_key_by_id d' id = if String.eqb id (pr_id p) then Some (procs_len d) else get_processor_key_by_id d id).
Proof.
  intros N R. unfold add_provenance, st_add, st_get_key, pr_maybe_id. unfold get_processor_key_by_id, st_id_to_key in N. rewrite N.
  apply N.leb_le in R. fold (procs_len d). rewrite R. eexists. split; [reflexivity|]. split; [destruct d; reflexivity|]. split; [unfold procs_len; cbn; rewrite app_length; cbn; lia|]. split.
  - intros j. unfold get_processor. cbn [doc_with_procs doc_procs]. erewrite st_get_snoc by reflexivity. reflexivity.
  - intros id. unfold get_processor_key_by_id, st_id_to_key. cbn. apply smap_get_insert.
Qed.
Lemma provenance_full d p : get_processor_key_by_id d (pr_id p) = None -> ~ (N.of_nat (procs_len d) <= max_proc)%N -> add_provenance d p = (d, Err EInternal).
Proof.
  intros N R. unfold add_provenance, st_add, st_get_key, pr_maybe_id. unfold get_processor_key_by_id, st_id_to_key in N. rewrite N.
  rewrite <- N.leb_le in R. apply not_true_iff_false in R. fold (procs_len d). rewrite R. destruct d; reflexivity.
Qed.
Lemma upd_processor_get d k f j : get_processor (upd_processor d k f) j = option_map (if Nat.eqb j k then f else fun x => x) (get_processor d j).
Proof.
  unfold upd_processor. destruct (get_processor d k) as [q|] eqn:G.
  - unfold get_processor in *. cbn [doc_with_procs doc_procs]. destruct (Nat.eqb_spec j k) as [->|N].
    + erewrite st_get_set_same by exact G. rewrite G. reflexivity.
    + rewrite st_get_set_other by exact N. destruct (st_get (doc_procs d) j); reflexivity.
  - destruct (Nat.eqb_spec j k) as [->|N]; [rewrite G; reflexivity|]. destruct (get_processor d j); reflexivity.
Qed.
Lemma upd_processor_rest d k f : only_procs d (upd_processor d k f) /\ procs_len (upd_processor d k f) = procs_len d /\ forall id, get_processor_key_by_id (upd_processor d k f) id = get_processor_key_by_id d id.
Proof.
  unfold upd_processor. destruct (get_processor d k) as [q|]; [|split; [apply only_refl|auto]]. split; [destruct d; reflexivity|]. split; [apply st_set_len|reflexivity].
Qed.
Lemma processor_attached d par c q : get_processor d par = Some q -> get_processor d c <> None -> par <> c ->
  exists d', attach_processor d par c = (d', Ok tt) /\ only_procs d d' /\ procs_len d' = procs_len d /\ (forall id, get_processor_key_by_id d' id = get_processor_key_by_id d id) /\
  forall j, get_processor d' j = option_map (fun x => if Nat.eqb j c then pr_with_parent (Some par) x else if Nat.eqb j par then pr_with_processors (pr_processors x ++ [c]) x else x) (get_processor d j).
Proof.
  intros P C N. unfold attach_processor. rewrite P. destruct (get_processor d c) as [cq|] eqn:GC; [|congruence]. eexists. split; [reflexivity|].
  set (d1 := upd_processor d c _). destruct (upd_processor_rest d c (pr_with_parent (Some par))) as (O1 & L1 & I1). fold d1 in O1, L1, I1.
  destruct (upd_processor_rest d1 par (fun p => pr_with_processors (pr_processors p ++ [c]) p)) as (O2 & L2 & I2).
  split; [eapply only_trans; eassumption|]. split; [congruence|]. split; [intros id; rewrite I2; apply I1|].
  intros j. rewrite upd_processor_get. unfold d1. rewrite upd_processor_get. destruct (get_processor d j) as [x|]; [|reflexivity]. cbn.
  destruct (Nat.eqb_spec j c) as [->|J].
  - destruct (Nat.eqb_spec c par); [congruence|reflexivity].
  - destruct (Nat.eqb j par); reflexivity.
Qed.
Lemma Forall2_imp {A B} (P Q : A -> B -> Prop) l1 l2 : (forall a b, P a b -> Q a b) -> Forall2 P l1 l2 -> Forall2 Q l1 l2.
Proof. intros H F. induction F; constructor; auto. Qed.
Lemma ids_eq p : proc_ids p = pr_id p :: flat_map proc_ids (pr_pending p).
Proof. destruct p; reflexivity. Qed.
Lemma size_eq p : proc_size p = S (list_sum (map proc_size (pr_pending p))).
Proof. destruct p; reflexivity. Qed.
Lemma pgrow_refl d par : pgrow d d par [] 0 [].
Proof.
  split; auto using only_refl. intros j q ->. destruct (Nat.eqb j par); [|reflexivity]. rewrite app_nil_r. destruct q; reflexivity.
Qed.
Lemma pgrow_trans a b c par l1 l2 n1 n2 i1 i2 : pgrow a b par l1 n1 i1 -> pgrow b c par l2 n2 i2 -> pgrow a c par (l1 ++ l2) (n1 + n2) (i1 ++ i2).
Proof.
  intros [O1 L1 G1 I1 N1] [O2 L2 G2 I2 N2]. split; [eapply only_trans; eassumption|lia| |auto|].
  - intros j q H. rewrite (G2 _ _ (G1 _ _ H)). destruct (Nat.eqb j par); [|reflexivity]. f_equal. rewrite app_assoc. destruct q; reflexivity.
  - intros id H. apply N2 in H. rewrite in_app_iff. destruct H as [H|H]; [|auto]. apply N1 in H. tauto.
Qed.
Lemma sizes_cons p l : list_sum (map proc_size (p :: l)) = proc_size p + list_sum (map proc_size l).
Proof. reflexivity. Qed.
Definition unused (d : document) (ids : list string) : Prop := forall id, In id ids -> get_processor_key_by_id d id = None.
Definition room_for (d : document) (n : nat) : Prop := n = 0 \/ (N.of_nat (n + procs_len d) <= max_proc + 1)%N.
Definition sub_added (p : processor) : Prop := forall d par q, brand_new p -> NoDup (proc_ids p) -> unused d (proc_ids p) -> get_processor d par = Some q ->
  (room_for d (proc_size p) -> exists d', add_subprocessor d par p = (d', Ok (procs_len d))) /\
  forall d' k, add_subprocessor d par p = (d', Ok k) -> k = procs_len d /\ pgrow d d' par [k] (proc_size p) (proc_ids p) /\ made_at d' (procs_len d) (Some par) k p.
Lemma subs_added l : Forall sub_added l -> forall d par q, (forall p, In p l -> brand_new p) -> NoDup (flat_map proc_ids l) -> unused d (flat_map proc_ids l) -> get_processor d par = Some q ->
  (room_for d (list_sum (map proc_size l)) -> exists d', add_subprocessors d par l = (d', Ok tt)) /\
  forall d', add_subprocessors d par l = (d', Ok tt) -> exists ks, pgrow d d' par ks (list_sum (map proc_size l)) (flat_map proc_ids l) /\ Forall2 (made_at d' (procs_len d) (Some par)) ks l.
Proof.
  induction 1 as [|p l HP HL IH]; intros d par q BN ND UN GP; cbn [add_subprocessors flat_map] in *; [|rewrite sizes_cons in *].
  - split; [eauto|]. intros d' H. injection H as <-. exists []. split; [apply pgrow_refl|constructor].
  - apply NoDup_app_inv in ND. destruct ND as (ND1 & ND2 & ND3).
    destruct (HP d par q (BN p (or_introl eq_refl)) ND1) as (OK1 & R1); [intros id H; apply UN, in_or_app; auto|exact GP|].
    assert (K : forall d1 k, add_subprocessor d par p = (d1, Ok k) -> pgrow d d1 par [k] (proc_size p) (proc_ids p) /\ made_at d1 (procs_len d) (Some par) k p /\
      (exists q1, get_processor d1 par = Some q1) /\ unused d1 (flat_map proc_ids l)).
    { intros d1 k H. destruct (R1 _ _ H) as (-> & G & M). split; [exact G|]. split; [exact M|]. split; [eexists; apply (pg_get _ _ _ _ _ _ G _ _ GP)|].
      intros id J. destruct (get_processor_key_by_id d1 id) eqn:Q; [|reflexivity]. exfalso.
      destruct (pg_new _ _ _ _ _ _ G id) as [X|X]; [congruence| |]; [apply X, UN, in_or_app; auto|]. apply (ND3 id X J). }
    split.
    + intros R. assert (R' : room_for d (proc_size p)). { right. destruct R as [R|R]; [rewrite size_eq in R; discriminate R|]. lia. }
      destruct (OK1 R') as (d1 & H1). destruct (K _ _ H1) as (G & _ & (q1 & GQ) & UN1). rewrite H1. cbn [sbind].
      apply (proj1 (IH d1 par q1 (fun x i => BN x (or_intror i)) ND2 UN1 GQ)). right. rewrite (pg_len _ _ _ _ _ _ G).
      destruct R as [R|R]; [rewrite size_eq in R; discriminate R|]. lia.
    + intros d' H. apply sbind_ok in H. destruct H as (d1 & k & H1 & H). destruct (K _ _ H1) as (G & M & (q1 & GQ) & UN1).
      destruct (proj2 (IH d1 par q1 (fun x i => BN x (or_intror i)) ND2 UN1 GQ) _ H) as (ks & G2 & F). exists (k :: ks).
      split; [exact (pgrow_trans _ _ _ _ _ _ _ _ _ _ G G2)|]. constructor.
      * eapply made_at_grow; [exact G2|eapply proc_lt, GP|exact M].
      * eapply Forall2_imp; [|exact F]. intros a b X. eapply made_at_weaken; [|exact X]. rewrite (pg_len _ _ _ _ _ _ G). lia.
Qed.
Lemma all_sub_added p : sub_added p.
Proof.
  induction p as [p IH] using proc_ind. intros d par q BN ND UN GP. rewrite ids_eq in *. apply NoDup_cons_iff in ND. destruct ND as (NI & ND).
  assert (BNF : pr_processors p = [] /\ pr_parent p = None /\ forall c, In c (pr_pending p) -> brand_new c).
  { inversion BN as [p' (A & B) C]; subst. auto. }
  destruct BNF as (NP & _ & BC). assert (U0 : get_processor_key_by_id d (pr_id (pr_with_pending [] p)) = None) by (apply UN; left; reflexivity).
  assert (PL : par < procs_len d) by (eapply proc_lt, GP).
  assert (K : (N.of_nat (procs_len d) <= max_proc)%N -> exists d2, let n := procs_len d in
    (let! d1, child := add_provenance d (pr_with_pending [] p) in let! d2, _ := attach_processor d1 par child in (d2, Ok child)) = (d2, Ok n) /\
    only_procs d d2 /\ procs_len d2 = S n /\ get_processor d2 n = Some (pr_with_parent (Some par) (pr_assign_key n (pr_with_pending [] p))) /\
    (forall j, j <> n -> get_processor d2 j = option_map (fun x => if Nat.eqb j par then pr_with_processors (pr_processors x ++ [n]) x else x) (get_processor d j)) /\
    (forall id, get_processor_key_by_id d2 id = if String.eqb id (pr_id p) then Some n else get_processor_key_by_id d id)).
  { intros R. destruct (provenance_added d (pr_with_pending [] p) U0 R) as (d1 & E1 & O1 & L1 & G1 & I1).
    assert (GP1 : get_processor d1 par = Some q). { rewrite G1. destruct (Nat.eqb_spec par (procs_len d)); [lia|exact GP]. }
    destruct (processor_attached d1 par (procs_len d) q GP1) as (d2 & E2 & O2 & L2 & I2 & G2); [rewrite G1, Nat.eqb_refl; discriminate|lia|].
    exists d2. cbv zeta. rewrite E1. cbn [sbind]. rewrite E2. cbn [sbind]. split; [reflexivity|]. split; [eapply only_trans; eassumption|]. split; [congruence|]. split; [|split].
    - rewrite G2, G1, Nat.eqb_refl. reflexivity.
    - intros j J. rewrite G2, G1. apply Nat.eqb_neq in J. rewrite J. reflexivity.
    - intros id. rewrite I2, I1. reflexivity. }
  rewrite add_subprocessor_eq.
  assert (SPLIT : (let! d1, child := add_provenance d (pr_with_pending [] p) in let! d2, _ := attach_processor d1 par child in let! d3, _ := add_subprocessors d2 child (pr_pending p) in (d3, Ok child)) =
    (let! d2, child := (let! d1, child := add_provenance d (pr_with_pending [] p) in let! d2, _ := attach_processor d1 par child in (d2, Ok child)) in let! d3, _ := add_subprocessors d2 child (pr_pending p) in (d3, Ok child))).
  { destruct (add_provenance d (pr_with_pending [] p)) as [d1 [c| | |]]; cbn [sbind]; try reflexivity. destruct (attach_processor d1 par c) as [d2 [u| | |]]; reflexivity. }
  rewrite SPLIT. clear SPLIT. destruct (N.le_gt_cases (N.of_nat (procs_len d)) max_proc) as [R|R].
  2: { split.
    - intros [S|S]; rewrite size_eq in S; [discriminate|]. lia.
    - intros d' k H. rewrite (provenance_full d (pr_with_pending [] p) U0) in H by lia. discriminate H. }
  destruct (K R) as (d2 & E2 & O2 & L2 & GN & G2 & I2). clear K. cbv zeta in *. rewrite E2. cbn [sbind].
  assert (UN2 : unused d2 (flat_map proc_ids (pr_pending p))).
  { intros id J. rewrite I2. destruct (String.eqb_spec id (pr_id p)) as [->|]; [contradiction|]. apply UN. right. exact J. }
  destruct (subs_added (pr_pending p) IH d2 (procs_len d) _ BC ND UN2 GN) as (OK & RES). split.
  - intros RM. destruct OK as (d3 & E3); [|rewrite E3; cbn; eauto]. destruct RM as [S|S]; rewrite size_eq in S; [discriminate S|]. unfold room_for. rewrite L2. right. lia.
  - intros d' k H. apply sbind_ok in H. destruct H as (d3 & u & H3 & H). injection H as <- <-. destruct u. destruct (RES _ H3) as (ks & G & F). split; [reflexivity|]. destruct G as [O3 L3 G3 I3 N3]. split.
    + split; [eapply only_trans; eassumption|rewrite size_eq; lia| | |].
      * intros j x GX. assert (J : j < procs_len d) by (eapply proc_lt, GX). assert (GX2 := G2 j ltac:(lia)). rewrite GX in GX2. cbn [option_map] in GX2.
        rewrite (G3 _ _ GX2). destruct (Nat.eqb_spec j (procs_len d)); [lia|reflexivity].
      * intros id k GI. apply I3. rewrite I2. destruct (String.eqb_spec id (pr_id p)) as [->|]; [|exact GI]. rewrite (UN (pr_id p)) in GI by (left; reflexivity). discriminate.
      * intros id X. apply N3 in X. destruct X as [X|X]; [|right; right; exact X]. rewrite I2 in X. destruct (String.eqb_spec id (pr_id p)) as [E|]; [right; left; auto|left; exact X].
    + pose proof (G3 _ _ GN) as GK. rewrite Nat.eqb_refl in GK. econstructor; [apply Nat.le_refl|exact GK| | |reflexivity|reflexivity|].
      * apply I3. rewrite I2, String.eqb_refl. reflexivity.
      * split; reflexivity.
      * cbn [pr_processors pr_with_processors pr_with_parent pr_assign_key pr_with_pending]. rewrite NP. cbn [app]. eapply Forall2_imp; [|exact F]. intros a b X. eapply made_at_weaken; [|exact X]. lia.
Qed.

(* ================================================================ C59 *)
Theorem C59_add_processor_partial : forall d p, brand_new p -> NoDup (proc_ids p) -> (forall id, In id (proc_ids p) -> get_processor_key_by_id d id = None) ->
  ((N.of_nat (procs_len d + proc_size p) <= max_proc + 1)%N -> exists d' k, add_processor d p = (d', Ok k)) /\
  forall d' k, add_processor d p = (d', Ok k) ->
    doc_chain d' = doc_chain d ++ [k] /\ made_from d' None k p /\
    (forall j q, get_processor d j = Some q -> get_processor d' j = Some q) /\ (forall id j, get_processor_key_by_id d id = Some j -> get_processor_key_by_id d' id = Some j) /\
    (forall id, get_processor_key_by_id d' id <> None -> get_processor_key_by_id d id <> None \/ In id (proc_ids p)) /\
    procs_len d' = procs_len d + proc_size p /\ d' = doc_with_chain (doc_with_procs d (doc_procs d')) (doc_chain d').
Proof.
  intros d p BN ND UN. rewrite ids_eq in *. apply NoDup_cons_iff in ND. destruct ND as (NI & ND).
  assert (BNF : pr_processors p = [] /\ pr_parent p = None /\ forall c, In c (pr_pending p) -> brand_new c).
  { inversion BN as [p' (A & B) C]; subst. auto. }
  destruct BNF as (NP & PP & BC). assert (U0 : get_processor_key_by_id d (pr_id (pr_with_pending [] p)) = None) by (apply UN; left; reflexivity).
  unfold add_processor. destruct (N.le_gt_cases (N.of_nat (procs_len d)) max_proc) as [R|R].
  2: { split; [rewrite size_eq; lia|]. intros d' k H. rewrite (provenance_full d (pr_with_pending [] p) U0) in H by lia. discriminate H. }
  destruct (provenance_added d (pr_with_pending [] p) U0 R) as (d1 & E1 & O1 & L1 & G1 & I1). rewrite E1. cbn [sbind].
  set (d2 := doc_with_chain d1 (doc_chain d1 ++ [procs_len d])).
  assert (GN : get_processor d2 (procs_len d) = Some (pr_assign_key (procs_len d) (pr_with_pending [] p))). { change (get_processor d2) with (get_processor d1). rewrite G1, Nat.eqb_refl. reflexivity. }
  assert (UN2 : unused d2 (flat_map proc_ids (pr_pending p))).
  { intros id J. change (get_processor_key_by_id d2) with (get_processor_key_by_id d1). rewrite I1. cbn [pr_id pr_with_pending]. destruct (String.eqb_spec id (pr_id p)) as [->|]; [contradiction|]. apply UN. right. exact J. }
  destruct (subs_added (pr_pending p) (proj2 (Forall_forall _ _) (fun x _ => all_sub_added x)) d2 (procs_len d) _ BC ND UN2 GN) as (OK & RES). split.
  - intros RM. destruct OK as (d3 & E3); [|rewrite E3; cbn; eauto]. right. change (procs_len d2) with (procs_len d1). rewrite size_eq in RM. lia.
  - intros d' k H. apply sbind_ok in H. destruct H as (d3 & u & H3 & H). injection H as <- <-. destruct u. destruct (RES _ H3) as (ks & [O3 L3 G3 I3 N3] & F).
    assert (C : doc_chain d3 = doc_chain d1 ++ [procs_len d]) by (rewrite O3; reflexivity). assert (C1 : doc_chain d1 = doc_chain d) by (rewrite O1; reflexivity).
    split; [congruence|]. split; [|split; [|split; [|split; [|split]]]].
    + pose proof (G3 _ _ GN) as GK. rewrite Nat.eqb_refl in GK. econstructor; [exact GK| | |reflexivity|exact PP|].
      * apply I3. change (get_processor_key_by_id d2) with (get_processor_key_by_id d1). rewrite I1. cbn [pr_id pr_with_pending]. rewrite String.eqb_refl. reflexivity.
      * split; reflexivity.
      * cbn [pr_processors pr_with_processors pr_assign_key pr_with_pending]. rewrite NP. cbn [app]. eapply Forall2_imp; [|exact F]. intros a b X. eapply made_at_from, X.
    + intros j q GQ. assert (J : j < procs_len d) by (eapply proc_lt, GQ). assert (GQ2 : get_processor d2 j = Some q).
      { change (get_processor d2) with (get_processor d1). rewrite G1. destruct (Nat.eqb_spec j (procs_len d)); [lia|exact GQ]. }
      rewrite (G3 _ _ GQ2). destruct (Nat.eqb_spec j (procs_len d)); [lia|reflexivity].
    + intros id j GI. apply I3. change (get_processor_key_by_id d2) with (get_processor_key_by_id d1). rewrite I1. cbn [pr_id pr_with_pending].
      destruct (String.eqb_spec id (pr_id p)) as [->|]; [|exact GI]. rewrite (UN (pr_id p)) in GI by (left; reflexivity). discriminate.
    + intros id X. apply N3 in X. destruct X as [X|X]; [|right; right; exact X]. change (get_processor_key_by_id d2) with (get_processor_key_by_id d1) in X. rewrite I1 in X. cbn [pr_id pr_with_pending] in X.
      destruct (String.eqb_spec id (pr_id p)) as [E|]; [right; left; auto|left; exact X].
    + rewrite L3. change (procs_len d2) with (procs_len d1). rewrite L1, size_eq. lia.
    + rewrite C, C1. eapply eq_trans; [exact O3|]. generalize (doc_procs d3). intros x. subst d2. rewrite C1. rewrite O1. destruct d; reflexivity.
Qed.
Print Assumptions C59_add_processor_partial.

(* a processor whose ID is taken is not added again: the one that has the ID is put in the chain a second time *)
Definition prov_doc : document := fst (add_processor ex_doc (pr_new "again" "tool")).
Theorem C59_taken_id_refuted : exists d' k, add_processor prov_doc (pr_new "again" "other tool") = (d', Ok k) /\
  In k (doc_chain prov_doc) /\ doc_chain d' = doc_chain prov_doc ++ [k] /\ option_map pr_name (get_processor d' k) = Some "tool".
Proof. vm_compute. eexists. eexists. split; [reflexivity|]. split; [|split; reflexivity]. auto. Qed.
Print Assumptions C59_taken_id_refuted.
(* a subprocessor whose ID is taken makes the existing processor a subprocessor: it is then in the chain and below another *)
Theorem C59_taken_sub_id_refuted : exists d' k q, let p := pr_with_new_subprocessor (pr_new "again" "other tool") (pr_new "outer" "pipeline") in
  brand_new p /\ NoDup (proc_ids p) /\ add_processor prov_doc p = (d', Ok k) /\ get_processor prov_doc q <> get_processor d' q /\ option_map pr_parent (get_processor d' q) = Some (Some k) /\ In q (doc_chain d').
Proof.
  assert (Q : exists k, get_processor_key_by_id prov_doc "again" = Some k) by (vm_compute; eauto). destruct Q as (q & Q).
  eexists. eexists. exists q. cbv zeta. split; [apply proc_fresh_allb_spec; reflexivity|]. split; [repeat constructor; cbn; intuition discriminate|].
  split; [vm_compute; reflexivity|]. vm_compute in Q. injection Q as <-. split; [vm_compute; discriminate|]. split; [reflexivity|]. vm_compute. auto.
Qed.
Print Assumptions C59_taken_sub_id_refuted.
(* three levels *)
Definition ex_pipeline : processor :=
  pr_with_new_subprocessor (pr_new "c" "tagger") (pr_with_new_subprocessor (pr_with_new_subprocessor (pr_new "b.1" "sub") (pr_new "b" "tokeniser")) (pr_new "a" "pipeline")).
Example C59_nonvacuous : brand_new ex_pipeline /\ NoDup (proc_ids ex_pipeline) /\ (forall id, In id (proc_ids ex_pipeline) -> get_processor_key_by_id ex_doc id = None) /\
  proc_size ex_pipeline = 4 /\ exists d' k, add_processor ex_doc ex_pipeline = (d', Ok k).
Proof.
  split; [apply proc_fresh_allb_spec; reflexivity|]. split; [repeat constructor; cbn; intuition discriminate|]. split; [|split; [reflexivity|]].
  - intros id H. cbn in H. decompose [or] H; subst; try contradiction; vm_compute; reflexivity.
  - vm_compute. eauto.
Qed.
