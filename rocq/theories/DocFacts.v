(* Declarations: declare, defaults, what is kept by every operation. *)
From Coq Require Import String List Bool Arith NArith Lia.
From Verif Require Import Base BaseFacts Types TypesFacts SpecTable Attrib AttribFacts Element Store StoreFacts Metadata Document Select DocOps Xml Parser History FrameFacts InvFacts.
Import ListNotations.
Open Scope list_scope.

(* ---------------------------------------------------------------- default declarations *)
Lemma has_type_spec t o : has_type t o = true <-> exists x, o = Some x /\ d_type x = t.
Proof.
  destruct o as [x|]; cbn; split.
  - intros H. exists x. split; [reflexivity|]. destruct (at_eqb_spec (d_type x) t); congruence.
  - intros (y & E & <-). inversion E; subst. apply at_eqb_refl.
  - discriminate.
  - intros (y & E & _). discriminate.
Qed.
Lemma indices_spec t l : forall i k, In k (indices_of_type i t l) <-> (i <= k /\ exists o, nth_error l (k - i) = Some o /\ has_type t o = true).
Proof.
  induction l as [|o l IH]; intros i k; cbn [indices_of_type].
  - split; [intros []|]. intros (_ & o & H & _). destruct (k - i); discriminate.
  - assert (S1 : In k (indices_of_type (S i) t l) <-> i < k /\ exists o', nth_error (o :: l) (k - i) = Some o' /\ has_type t o' = true).
    { rewrite IH. split; intros (L & o' & N & H).
      - split; [lia|]. exists o'. replace (k - i) with (S (k - S i)) by lia. auto.
      - split; [lia|]. exists o'. replace (k - i) with (S (k - S i)) in N by lia. auto. }
    destruct (has_type t o) eqn:T; cbn [In]; rewrite S1.
    + split.
      * intros [->|(L & R)]; [|split; [lia|exact R]]. split; [lia|]. rewrite Nat.sub_diag. cbn. eauto.
      * intros (L & R). destruct (Nat.eq_dec i k); [auto|]. right. split; [lia|exact R].
    + split; [intros (L & R); split; [lia|exact R]|]. intros (L & o' & N & H). split; [|eauto].
      destruct (Nat.eq_dec i k); [|lia]. subst k. rewrite Nat.sub_diag in N. cbn in N. congruence.
Qed.
Lemma indices_nodup t l : forall i, NoDup (indices_of_type i t l).
Proof.
  induction l as [|o l IH]; intros i; cbn; [constructor|]. destruct (has_type t o); [|apply IH].
  constructor; [|apply IH]. rewrite indices_spec. intros (L & _). lia.
Qed.
Lemma indices0 (s : store declaration) t k : In k (indices_of_type 0 t (st_items s)) <-> exists x, st_get s k = Some x /\ d_type x = t.
Proof.
  rewrite indices_spec. rewrite Nat.sub_0_r. unfold st_get. split.
  - intros (_ & o & N & H). rewrite N. apply has_type_spec in H. exact H.
  - intros (x & G & T). split; [lia|]. destruct (nth_error (st_items s) k) as [o|]; [|discriminate]. exists o. split; [reflexivity|].
    apply has_type_spec. eauto.
Qed.
(* k is the only declaration of its type *)
Definition only_decl (s : store declaration) (t : AnnotationType) (k : nat) : Prop :=
  (exists x, st_get s k = Some x /\ d_type x = t) /\ forall j y, st_get s j = Some y -> d_type y = t -> j = k.
Lemma default_key_spec s t k : get_default_key s t = Some k <-> only_decl s t k.
Proof.
  unfold get_default_key, only_decl. pose proof (indices_nodup t (st_items s) 0) as ND.
  pose proof (indices0 s t) as I. destruct (indices_of_type 0 t (st_items s)) as [|a [|b l]].
  - split; [discriminate|]. intros (H & _). apply I in H. destruct H.
  - split.
    + intros H; inversion H; subst. split; [apply I; left; reflexivity|].
      intros j y G T. destruct (proj2 (I j)) as [->|[]]; eauto.
    + intros (H & _). apply I in H. destruct H as [->|[]]. reflexivity.
  - split; [discriminate|]. intros (_ & U).
    assert (A : a = k). { destruct (proj1 (I a) (or_introl eq_refl)) as (x & G & T). eapply U; eassumption. }
    assert (B : b = k). { destruct (proj1 (I b) (or_intror (or_introl eq_refl))) as (x & G & T). eapply U; eassumption. }
    inversion ND; subst. exfalso. apply H1. left; reflexivity.
Qed.

Lemma filter_le {A} (f : A -> bool) l : length (filter f l) <= length l.
Proof. induction l as [|a l IH]; cbn; [lia|]. destruct (f a); cbn; lia. Qed.
Lemma type_count_indices t l : forall i, length (filter (has_type t) l) = length (indices_of_type i t l).
Proof. induction l as [|o l IH]; intros i; cbn; [reflexivity|]. destruct (has_type t o); cbn; rewrite (IH (S i)); reflexivity. Qed.
Lemma default_mask_spec s k x : st_get s k = Some x ->
  (nth_error (default_mask s) k = Some true <-> get_default_key s (d_type x) = Some k).
Proof.
  intros G. unfold default_mask. rewrite nth_error_map. unfold st_get in G.
  destruct (nth_error (st_items s) k) as [o|] eqn:N; [|discriminate]. subst o. cbn [option_map].
  assert (IK : In k (indices_of_type 0 (d_type x) (st_items s))).
  { apply indices0. exists x. unfold st_get. rewrite N. auto. }
  unfold type_count, get_default_key. rewrite (type_count_indices _ _ 0).
  destruct (indices_of_type 0 (d_type x) (st_items s)) as [|a [|b l]].
  - destruct IK.
  - destruct IK as [->|[]]. cbn. split; reflexivity.
  - cbn. split; intros H; discriminate.
Qed.
Lemma default_mask_len s : length (default_mask s) = st_len s.
Proof. unfold default_mask. rewrite map_length. reflexivity. Qed.

(* ---------------------------------------------------------------- declare *)
Lemma get_assoc_decl d dk pk j : get_declaration (assoc_processor d dk pk) j =
  if Nat.eqb j dk then option_map (fun dec => d_with_processors dec (push_if_absent pk (d_processors dec))) (get_declaration d dk)
  else get_declaration d j.
Proof.
  unfold assoc_processor, upd_declaration. destruct (get_declaration d dk) as [x|] eqn:G.
  - unfold get_declaration, doc_with_decls in *; cbn [doc_decls]. destruct (Nat.eqb_spec j dk) as [->|N].
    + apply (st_get_set_same _ _ _ _ G).
    + apply st_get_set_other, N.
  - destruct (Nat.eqb_spec j dk) as [->|N]; [exact G|reflexivity].
Qed.
Lemma assoc_parts d dk pk : doc_elements (assoc_processor d dk pk) = doc_elements d /\ doc_procs (assoc_processor d dk pk) = doc_procs d /\
  doc_active (assoc_processor d dk pk) = doc_active d /\ st_index (doc_decls (assoc_processor d dk pk)) = st_index (doc_decls d) /\
  st_len (doc_decls (assoc_processor d dk pk)) = st_len (doc_decls d).
Proof.
  unfold assoc_processor, upd_declaration. destruct (get_declaration d dk); repeat split; try reflexivity.
  docs_g. apply st_set_len.
Qed.
Lemma push_if_absent_In k l : In k (push_if_absent k l).
Proof. unfold push_if_absent. destruct (mem_nat k l) eqn:M; [apply mem_nat_In, M|]. apply in_or_app. right; left; reflexivity. Qed.
Lemma push_if_absent_idem k l : push_if_absent k (push_if_absent k l) = push_if_absent k l.
Proof.
  unfold push_if_absent at 1. pose proof (push_if_absent_In k l) as H. apply mem_nat_In in H. rewrite H. reflexivity.
Qed.
Lemma assoc_idem d dk pk : assoc_processor (assoc_processor d dk pk) dk pk = assoc_processor d dk pk.
Proof.
  unfold assoc_processor at 1. unfold upd_declaration. rewrite get_assoc_decl, Nat.eqb_refl.
  destruct (get_declaration d dk) as [dec|] eqn:G; [|reflexivity]. cbn [option_map].
  assert (E : get_declaration (assoc_processor d dk pk) dk = Some (d_with_processors dec (push_if_absent pk (d_processors dec)))).
  { rewrite get_assoc_decl, Nat.eqb_refl, G. reflexivity. }
  replace (d_with_processors (d_with_processors dec (push_if_absent pk (d_processors dec)))
     (push_if_absent pk (d_processors (d_with_processors dec (push_if_absent pk (d_processors dec))))))
    with (d_with_processors dec (push_if_absent pk (d_processors dec))).
  - unfold get_declaration in E. rewrite (st_set_id _ _ _ E). apply doc_with_decls_id.
  - destruct dec; cbn. rewrite push_if_absent_idem. reflexivity.
Qed.

(* the declaration a declare with no matching index entry falls back to *)
Definition declare_default (d : document) (t : AnnotationType) (set : option string) : option nat :=
  match get_default_key (doc_decls d) t with
  | Some dk => match get_declaration d dk with
               | Some dec => match set with
                             | Some s => match d_set dec with Some s' => if String.eqb s' s then Some dk else None | None => None end
                             | None => Some dk
                             end
               | None => None
               end
  | None => None
  end.
Definition with_active (d : document) (k : nat) : document :=
  match doc_active d with Some pk => assoc_processor d k pk | None => d end.
Inductive declare_case (d : document) (t : AnnotationType) (set a f : option string) : document -> res nat -> Prop :=
  | DC_index k dec : get_declaration_key_by_id d (index_id t set) = Some k -> get_declaration d k = Some dec ->
      d_type dec = t -> d_set dec = set -> declare_case d t set a f d (Ok k)
  | DC_default k dec : set = None -> get_declaration_key_by_id d (index_id t None) = None -> only_decl (doc_decls d) t k ->
      get_declaration d k = Some dec -> d_type dec = t -> declare_case d t set a f (with_active d k) (Ok k)
  | DC_new d1 : get_declaration_key_by_id d (index_id t set) = None -> declare_default d t set = None ->
      add_declaration d (d_new t set a f) = (d1, Ok (st_len (doc_decls d))) ->
      get_declaration d1 (st_len (doc_decls d)) = Some (d_assign_key (st_len (doc_decls d)) (d_new t set a f)) ->
      get_declaration_key_by_id d1 (index_id t set) = Some (st_len (doc_decls d)) ->
      declare_case d t set a f (with_active d1 (st_len (doc_decls d))) (Ok (st_len (doc_decls d)))
  | DC_full : get_declaration_key_by_id d (index_id t set) = None -> (max_dec < N.of_nat (st_len (doc_decls d)))%N ->
      declare_case d t set a f d (Err EInternal).

Lemma declare_cases d t set a f : doc_ok d -> declare_case d t set a f (fst (declare d t set a f)) (snd (declare d t set a f)).
Proof.
  intros (_ & (HD & _ & _) & _). unfold declare. destruct (get_declaration_key_by_id d (index_id t set)) as [k|] eqn:X.
  - destruct HD as (_ & Hi & _). destruct (Hi _ _ X) as (dec & G & M). unfold d_maybe_id in M. inversion M as [M'].
    apply index_id_inj in M'. destruct M'. eapply DC_index; eassumption.
  - cbv zeta. fold (declare_default d t set). destruct (declare_default d t set) as [k|] eqn:DD.
    + cbn [sbind]. unfold declare_default in DD. destruct (get_default_key (doc_decls d) t) as [dk|] eqn:DK; [|discriminate].
      apply default_key_spec in DK. pose proof DK as ((dec & G & T) & _).
      unfold get_declaration in DD. rewrite G in DD.
      assert (k = dk /\ set = None) as (-> & ->).
      { destruct set as [s|]; [|inversion DD; auto]. destruct (d_set dec) as [s'|] eqn:S; [|discriminate].
        destruct (String.eqb_spec s' s) as [->|]; [|discriminate]. exfalso.
        destruct HD as (_ & _ & Hu). assert (M : d_maybe_id dec = Some (index_id t (Some s))) by (unfold d_maybe_id; rewrite S, T; reflexivity).
        apply (Hu _ _ _ G) in M. unfold get_declaration_key_by_id, st_id_to_key in X. congruence. }
      fold (with_active d dk). apply (DC_default d t None a f dk dec); auto.
    + destruct (add_declaration d (d_new t set a f)) as [d1 r] eqn:A.
      pose proof (add_cases max_dec d_maybe_id d_assign_key (doc_decls d) (d_new t set a f)) as C.
      pose proof (add_declaration_fst d (d_new t set a f)) as A1. pose proof (add_declaration_snd d (d_new t set a f)) as A2.
      rewrite A in A1, A2. cbn [fst snd] in A1, A2.
      destruct (st_add max_dec d_maybe_id d_assign_key (doc_decls d) (d_new t set a f)) as [s r']. cbn [fst snd] in *. subst d1 r'.
      inversion C as [id k M J|s' N B IT IX|N B]; subst.
      * unfold d_maybe_id in M. cbn in M. inversion M; subst. unfold get_declaration_key_by_id, st_id_to_key in X. congruence.
      * cbn [sbind fst snd]. fold (with_active (doc_with_decls d s) (st_len (doc_decls d))). apply DC_new; try assumption.
        -- unfold get_declaration. docs_g. rewrite (st_get_snoc _ _ _ _ IT), Nat.eqb_refl. reflexivity.
        -- unfold get_declaration_key_by_id, st_id_to_key. docs_g. rewrite IX. cbn [d_maybe_id d_new d_type d_set]. unfold d_maybe_id.
           apply smap_get_insert_same.
      * cbn [sbind fst snd]. rewrite doc_with_decls_id. apply DC_full; assumption.
Qed.

Lemma get_with_active d k j x : get_declaration (with_active d k) j = Some x ->
  exists y, get_declaration d j = Some y /\ d_type x = d_type y /\ d_set x = d_set y /\ d_key x = d_key y.
Proof.
  unfold with_active. destruct (doc_active d) as [pk|]; [|intros H; exists x; auto].
  rewrite get_assoc_decl. destruct (Nat.eqb_spec j k) as [->|N]; [|intros H; exists x; auto].
  destruct (get_declaration d k) as [y|]; [|discriminate]. cbn. intros H; inversion H; subst. exists y. cbn. auto.
Qed.
Lemma get_with_active' d k j y : get_declaration d j = Some y ->
  exists x, get_declaration (with_active d k) j = Some x /\ d_type x = d_type y /\ d_set x = d_set y /\ d_key x = d_key y.
Proof.
  intros G. unfold with_active. destruct (doc_active d) as [pk|]; [|exists y; auto].
  rewrite get_assoc_decl. destruct (Nat.eqb_spec j k) as [->|N]; [|exists y; auto].
  rewrite G. cbn. eexists; split; [reflexivity|]. cbn. auto.
Qed.
Lemma with_active_index d k : st_index (doc_decls (with_active d k)) = st_index (doc_decls d) /\ doc_active (with_active d k) = doc_active d /\
   st_len (doc_decls (with_active d k)) = st_len (doc_decls d).
Proof. unfold with_active. destruct (doc_active d) as [pk|] eqn:A; [|auto]. destruct (assoc_parts d k pk) as (_ & _ & P & Q & R). rewrite P, A. auto. Qed.

(* the result of declare *)
Theorem declare_result d t set a f d1 k : doc_ok d -> declare d t set a f = (d1, Ok k) ->
  exists dec, get_declaration d1 k = Some dec /\ d_type dec = t /\
    (d_set dec = set \/ set = None /\ only_decl (doc_decls d1) t k).
Proof.
  intros W H. pose proof (declare_cases d t set a f W) as C. rewrite H in C. cbn [fst snd] in C.
  inversion C as [k' dec X G T S|k' dec S X O G T|d2 X DD A G X2|]; subst.
  - eauto.
  - destruct (get_with_active' d k k dec G) as (x & GX & TX & SX & _). exists x. split; [exact GX|]. split; [congruence|].
    right. split; [reflexivity|]. destruct O as (_ & U). split; [exists x; split; [exact GX|congruence]|].
    intros j y GY TY. destruct (get_with_active d k j y GY) as (z & GZ & TZ & _). eapply U; [exact GZ|congruence].
  - destruct (get_with_active' d2 (st_len (doc_decls d)) _ _ G) as (x & GX & TX & SX & _). exists x. cbn in *. auto.
Qed.
Theorem declare_again d t set a f d1 k : doc_ok d -> declare d t set a f = (d1, Ok k) ->
  forall a' f', declare d1 t set a' f' = (d1, Ok k).
Proof.
  intros W H a' f'. pose proof (declare_cases d t set a f W) as C. rewrite H in C. cbn [fst snd] in C.
  inversion C as [k' dec X G T S|k' dec S X O G T|d2 X DD A G X2|]; subst.
  - unfold declare. rewrite X. reflexivity.
  - unfold declare. destruct (with_active_index d k) as (IX & AX & LX).
    unfold get_declaration_key_by_id, st_id_to_key in *. rewrite IX, X. cbv zeta.
    assert (O' : only_decl (doc_decls (with_active d k)) (d_type dec) k).
    { destruct O as (_ & U). destruct (get_with_active' d k k dec G) as (x & GX & TX & SX & _).
      split; [exists x; split; [exact GX|congruence]|].
      intros j y GY TY. destruct (get_with_active d k j y GY) as (z & GZ & TZ & _). eapply U; [exact GZ|congruence]. }
    rewrite (proj2 (default_key_spec _ _ _) O'). destruct O' as ((x & GX & _) & _). unfold get_declaration. rewrite GX. cbn [sbind].
    rewrite AX. unfold with_active. destruct (doc_active d); [|reflexivity]. rewrite assoc_idem. reflexivity.
  - unfold declare. destruct (with_active_index d2 (st_len (doc_decls d))) as (IX & _).
    unfold get_declaration_key_by_id, st_id_to_key in *. rewrite IX, X2. reflexivity.
Qed.

(* ---------------------------------------------------------------- what every operation keeps *)
Definition sub_get {A B} (f g : A -> option B) : Prop := forall k x, f k = Some x -> g k = Some x.
Record decl_keeps (x y : declaration) : Prop := {
  dk_key : d_key y = d_key x; dk_type : d_type y = d_type x; dk_set : d_set y = d_set x;
  dk_alias : d_alias y = d_alias x; dk_format : d_format y = d_format x;
  dk_procs : exists l, d_processors y = d_processors x ++ l;
  dk_class : sub_get (d_get_class x) (d_get_class y); dk_class_key : sub_get (d_class_key x) (d_class_key y);
  dk_subset : sub_get (d_get_subset x) (d_get_subset y); dk_subset_key : sub_get (d_subset_key x) (d_subset_key y);
  dk_subclass : sub_get (d_get_subclass x) (d_get_subclass y); dk_subclass_key : sub_get (d_subclass_key x) (d_subclass_key y) }.
(* only the links to other processors change *)
Record proc_keeps (p q : processor) : Prop := {
  pk_rest : exists l par, q = pr_with_processors (pr_processors p ++ l) (pr_with_parent par p) }.
Record elem_keeps (e e' : elementdata) : Prop := {
  ek_type : e_type e' = e_type e; ek_key : e_key e' = e_key e;
  ek_attribs : e_attribs e' = e_attribs e \/ relabelled e' /\ e_has_attrib e AB_SET = false }.
Definition st_keeps {T} (R : T -> T -> Prop) (s s' : store T) : Prop :=
  (forall k x, st_get s k = Some x -> exists y, st_get s' k = Some y /\ R x y) /\
  (forall id k, smap_get (st_index s) id = Some k -> smap_get (st_index s') id = Some k) /\
  st_len s <= st_len s'.
Record doc_le (a b : document) : Prop := {
  dl_elems : st_keeps elem_keeps (doc_elements a) (doc_elements b);
  dl_decls : st_keeps decl_keeps (doc_decls a) (doc_decls b);
  dl_procs : st_keeps proc_keeps (doc_procs a) (doc_procs b) }.

Lemma st_keeps_refl {T} (R : T -> T -> Prop) (s : store T) : (forall x, R x x) -> st_keeps R s s.
Proof. intros H. split; [eauto|]. split; auto. Qed.
Lemma st_keeps_trans {T} (R : T -> T -> Prop) (a b c : store T) : (forall x y z, R x y -> R y z -> R x z) ->
  st_keeps R a b -> st_keeps R b c -> st_keeps R a c.
Proof.
  intros T' (A1 & A2 & A3) (B1 & B2 & B3). split; [|split].
  - intros k x G. destruct (A1 _ _ G) as (y & G2 & R1). destruct (B1 _ _ G2) as (z & G3 & R2). eauto.
  - auto.
  - lia.
Qed.
Lemma st_keeps_add {T} (R : T -> T -> Prop) mk mi ak (s : store T) x : (forall x, R x x) -> st_keeps R s (fst (st_add mk mi ak s x)).
Proof.
  intros H. split; [|split].
  - intros k y G. exists y. split; [apply add_keeps, G|apply H].
  - intros id k. apply add_keeps_index.
  - apply add_len.
Qed.
Lemma st_keeps_set {T} (R : T -> T -> Prop) (s : store T) k x y : (forall x, R x x) -> st_get s k = Some x -> R x y -> st_keeps R s (st_set s k y).
Proof.
  intros H G RX. split; [|split].
  - intros j z GZ. destruct (Nat.eq_dec j k) as [->|N].
    + rewrite G in GZ. inversion GZ; subst. exists y. split; [apply (st_get_set_same _ _ _ _ G)|exact RX].
    + exists z. split; [rewrite st_get_set_other by exact N; exact GZ|apply H].
  - auto.
  - rewrite st_set_len. lia.
Qed.
Lemma sub_get_refl {A B} (f : A -> option B) : sub_get f f.
Proof. intros k x H; exact H. Qed.
Lemma decl_keeps_refl x : decl_keeps x x.
Proof. split; try reflexivity; try apply sub_get_refl. exists []. rewrite app_nil_r. reflexivity. Qed.
Lemma decl_keeps_trans x y z : decl_keeps x y -> decl_keeps y z -> decl_keeps x z.
Proof.
  intros [A1 A2 A3 A4 A5 (l1 & A6) A7 A8 A9 A10 A11 A12] [B1 B2 B3 B4 B5 (l2 & B6) B7 B8 B9 B10 B11 B12].
  split; try congruence; try (intros k v H; auto; fail).
  exists (l1 ++ l2). rewrite B6, A6, app_assoc. reflexivity.
Qed.
Lemma proc_keeps_refl p : proc_keeps p p.
Proof. split. exists [], (pr_parent p). rewrite app_nil_r. destruct p; reflexivity. Qed.
Lemma proc_keeps_trans x y z : proc_keeps x y -> proc_keeps y z -> proc_keeps x z.
Proof.
  intros [(l1 & p1 & ->)] [(l2 & p2 & ->)]. split. exists (l1 ++ l2), p2. destruct x; cbn. rewrite app_assoc. reflexivity.
Qed.
Lemma elem_keeps_refl e : elem_keeps e e.
Proof. split; auto. Qed.
Lemma elem_keeps_trans x y z : elem_keeps x y -> elem_keeps y z -> elem_keeps x z.
Proof.
  intros [A1 A2 A3] [B1 B2 B3]. split; try congruence.
  destruct A3 as [A3|((AL & dk & A3) & AS)]; destruct B3 as [B3|(B3 & BS)]; auto.
  - left. congruence.
  - right. split; [exact B3|]. unfold e_has_attrib in *. rewrite A3 in BS. exact BS.
  - right. split; [|exact AS]. split; [rewrite B1; exact AL|]. exists dk. congruence.
Qed.
Lemma doc_le_refl d : doc_le d d.
Proof. split; apply st_keeps_refl; auto using elem_keeps_refl, decl_keeps_refl, proc_keeps_refl. Qed.
Lemma doc_le_trans a b c : doc_le a b -> doc_le b c -> doc_le a c.
Proof.
  intros [A1 A2 A3] [B1 B2 B3]. split; eapply st_keeps_trans; eauto using elem_keeps_trans, decl_keeps_trans, proc_keeps_trans.
Qed.

Lemma sopt_add_keeps mk o x : sub_get (sopt_get o) (sopt_get (fst (sopt_add mk o x))) /\ sub_get (sopt_key o) (sopt_key (fst (sopt_add mk o x))).
Proof.
  unfold sopt_add. destruct o as [s|].
  - destruct (ss_get_key s x) as [k|]; [split; apply sub_get_refl|].
    pose proof (ss_add_eq mk s x) as E. destruct (ss_add mk s x) as [s' r]. cbn.
    split; intros k v H; cbn in *.
    + change s' with (fst (s', r)). rewrite E. apply add_keeps, H.
    + unfold ss_get_key in *. change s' with (fst (s', r)). rewrite E. apply add_keeps_index, H.
  - split; intros k v H; discriminate.
Qed.
Lemma decl_add_keeps add dec x : decl_add add -> decl_keeps dec (fst (add dec x)).
Proof.
  intros A. pose proof (decl_add_parts add dec x A) as (E1 & E2 & E3 & E4 & E5 & E6).
  split; try assumption; try (exists []; rewrite app_nil_r; exact E6);
    destruct A; unfold d_add_class, d_add_subclass, d_add_subset;
    match goal with |- context [sopt_add ?m ?o ?x] => pose proof (sopt_add_keeps m o x) as (K1 & K2); destruct (sopt_add m o x) end;
    cbn [fst] in *; try apply sub_get_refl; assumption.
Qed.

Lemma prim0_le g a b : prim0 g a b -> doc_le a b.
Proof.
  intros P. pose proof decl_keeps_refl as RD. pose proof proc_keeps_refl as RP. pose proof elem_keeps_refl as RE.
  destruct P; rewrite ?add_declaration_fst, ?add_provenance_fst; split; docs_g; try (apply st_keeps_refl; assumption).
  - apply st_keeps_add, RD.
  - apply (st_keeps_set _ _ _ _ _ RD H). split; try reflexivity; try apply sub_get_refl. eexists; reflexivity.
  - apply (st_keeps_set _ _ _ _ _ RD H0). apply decl_add_keeps, H.
  - apply st_keeps_add, RP.
  - apply (st_keeps_set _ _ _ _ _ RP H). split. exists [], (Some parent). destruct p; cbn. rewrite app_nil_r. reflexivity.
  - apply (st_keeps_set _ _ _ _ _ RP H). split. exists [child], (pr_parent p). destruct p; reflexivity.
  - apply (st_keeps_set _ _ _ _ _ RE H). split; auto.
  - apply (st_keeps_set _ _ _ _ _ RE H). split; auto.
  - apply (st_keeps_set _ _ _ _ _ RE H). split; auto.
  - apply (st_keeps_set _ _ _ _ _ RE H). split; auto. right. split; [|exact H1]. split; [exact H0|]. eexists; reflexivity.
Qed.
Theorem prims_le g a b : (forall t s x f, g_decl g (d_new t s x f)) -> prims g a b -> doc_le a b.
Proof.
  intros HD P. apply (prims_rel g (fun _ => True) doc_le); auto using doc_le_refl.
  - apply doc_le_trans.
  - intros; eapply prim0_le; eassumption.
  - intros. split; docs_g; try (apply st_keeps_refl; auto using decl_keeps_refl, proc_keeps_refl; fail).
    apply st_keeps_add, elem_keeps_refl.
Qed.
Lemma encode_le d e ctx : doc_le d (fst (encode d e ctx)).
Proof. apply (prims_le anything); [intros; exact I|]. apply lift, encode_p0. intros; exact I. Qed.
Theorem history_le g d l d' : guards_ok g -> reachable g d -> history g d l d' -> doc_le d d'.
Proof. intros G R H. apply (prims_le g); [apply (go_decl g G)|]. eapply history_prims; eassumption. Qed.
