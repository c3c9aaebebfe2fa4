(* The selection iterator does a pre-order walk, accepts what a selector asks for, and reports a span once. *)
From Coq Require Import String List Bool Arith NArith Lia.
From Verif Require Import Base Types SpecTable Attrib Element Store Metadata Document Select BaseFacts TypesFacts StoreFacts Spec SelSpec.
Import ListNotations.
Open Scope list_scope.

(* ---------------------------------------------------------------- recursion modes *)
Lemma accepts_type_spec t l : existsb (accepts_type t) l = true <-> in_list t l.
Proof.
  rewrite existsb_exists. split.
  - intros (x & I & A). destruct x as [u|g]; cbn in A.
    + destruct (et_eqb_spec u t) as [->|]; [left; exact I|discriminate].
    + right. exists g. split; [exact I|]. apply group_contains_In, A.
  - intros [I|(g & I & G)].
    + exists (AcceptElementType t). split; [exact I|]. cbn. destruct (et_eqb_spec t t); congruence.
    + exists (AcceptElementGroup g). split; [exact I|]. apply group_contains_In, G.
Qed.
Lemma rec_eval_spec r t : rec_eval r t = true <-> descends r t.
Proof.
  destruct r as [|l|l|]; cbn.
  - split; [discriminate|intros []].
  - apply accepts_type_spec.
  - rewrite negb_true_iff. destruct (existsb (accepts_type t) l) eqn:E.
    + apply accepts_type_spec in E. split; [discriminate|contradiction].
    + split; [|reflexivity]. intros _ I. apply accepts_type_spec in I. congruence.
  - tauto.
Qed.

(* ---------------------------------------------------------------- what a selector accepts *)
Lemma cmp_matches_spec {A} (eqb : A -> A -> bool) (S : forall a b, eqb a b = true <-> a = b) c v : cmp_matches eqb c v = true <-> meets c v.
Proof.
  destruct c as [|a| | |]; cbn; [tauto| | | |split; [discriminate|intros []]]; destruct v as [w|]; try (split; [discriminate|congruence]); try tauto.
  - rewrite S. split; congruence.
Qed.
Lemma crit_spec {A} (eqb : A -> A -> bool) (S : forall a b, eqb a b = true <-> a = b) c acc b : crit eqb c acc = Ok b -> (b = true <-> meets_read c acc).
Proof.
  unfold crit. destruct (cmp_is_any c) eqn:E.
  - intros H. injection H as <-. destruct c; try discriminate E. split; [left; reflexivity|reflexivity].
  - intros H. apply rbind_ok in H. destruct H as (v & V & H). injection H as <-. rewrite (cmp_matches_spec eqb S). split.
    + intros M. right. eauto.
    + intros [->|(w & W & M)]; [discriminate E|]. congruence.
Qed.
Lemma group_crit_spec c t : group_crit c t = true <-> meets_group c t.
Proof. destruct c as [|g| | |]; cbn; try tauto; try (split; [discriminate|intros []]). apply group_contains_In. Qed.
Lemma rand_spec a b c : rand a b = Ok c -> exists x, a = Ok x /\ (x = true -> b = Ok c) /\ (x = false -> c = false).
Proof. destruct a as [[|]| | |]; cbn; intros H; try discriminate; [exists true|exists false]; repeat split; intros; congruence. Qed.
Lemma nat_eqb_iff a b : Nat.eqb a b = true <-> a = b. Proof. apply Nat.eqb_eq. Qed.
Lemma et_eqb_iff a b : et_eqb a b = true <-> a = b. Proof. destruct (et_eqb_spec a b); split; congruence. Qed.
Lemma pt_eqb_iff a b : pt_eqb a b = true <-> a = b. Proof. destruct a, b; cbn; split; congruence. Qed.
Lemma dts_mem x l : existsb (dts_eqb x) l = true <-> In x l.
Proof.
  rewrite existsb_exists. split.
  - intros (y & I & E). destruct x, y; try discriminate E; exact I.
  - intros I. exists x. split; [exact I|]. destruct x; reflexivity.
Qed.
Definition this_matches (s : selector) (d : document) (item : datatype) : res bool :=
  match item with
  | DElement key | DSpanReference key =>
      if negb (match s_datatypes s with [] => true | _ => false end) && negb (existsb (dts_eqb DS_Elements) (s_datatypes s)) then Ok false
      else match get_elementdata d key with
           | Some e =>
               rand (Ok (group_crit (s_elementgroup s) (e_type e)))
               (rand (crit et_eqb (s_elementtype s) (Ok (Some (e_type e))))
               (rand (crit Nat.eqb (s_set s) (r_declaration_key e))
               (rand (crit Nat.eqb (s_subset s) (r_subset_key e))
               (rand (crit Nat.eqb (s_class s) (r_class_key e))
               (rand (crit Nat.eqb (s_processor s) (r_processor_key e))
               (rand (crit String.eqb (s_annotator s) (r_annotator d e))
                     (crit pt_eqb (s_annotatortype s) (r_annotatortype d e))))))))
           | None => Ok false
           end
  | DText _ => Ok (existsb (dts_eqb DS_Text) (s_datatypes s))
  | DComment _ => Ok (existsb (dts_eqb DS_Comments) (s_datatypes s))
  | DAddElement _ => Ok false
  end.
Lemma matches_eq s d item : matches s d item = match s_next s with Some n => ror (this_matches s d item) (matches n d item) | None => this_matches s d item end.
Proof. destruct s. reflexivity. Qed.
Lemma rand_meets (b1 : res bool) P1 b2 P2 : (forall b, b1 = Ok b -> (b = true <-> P1)) -> (forall b, b2 = Ok b -> (b = true <-> P2)) ->
  forall b, rand b1 b2 = Ok b -> (b = true <-> P1 /\ P2).
Proof.
  intros H1 H2 b H. apply rand_spec in H. destruct H as (x & X & T & F). specialize (H1 x X). destruct x.
  - specialize (H2 b (T eq_refl)). tauto.
  - rewrite (F eq_refl). split; [discriminate|]. intros (Q & _). apply H1 in Q. discriminate.
Qed.
Lemma this_matches_spec s d item b : this_matches s d item = Ok b -> (b = true <-> accepts_one d s item).
Proof.
  assert (E : forall k, match get_elementdata d k with Some e => rand (Ok (group_crit (s_elementgroup s) (e_type e)))
               (rand (crit et_eqb (s_elementtype s) (Ok (Some (e_type e))))
               (rand (crit Nat.eqb (s_set s) (r_declaration_key e))
               (rand (crit Nat.eqb (s_subset s) (r_subset_key e))
               (rand (crit Nat.eqb (s_class s) (r_class_key e))
               (rand (crit Nat.eqb (s_processor s) (r_processor_key e))
               (rand (crit String.eqb (s_annotator s) (r_annotator d e))
                     (crit pt_eqb (s_annotatortype s) (r_annotatortype d e)))))))) | None => Ok false end = Ok b ->
     (b = true <-> exists e, get_elementdata d k = Some e /\
        meets_group (s_elementgroup s) (e_type e) /\ meets (s_elementtype s) (Some (e_type e)) /\
        meets_read (s_set s) (r_declaration_key e) /\ meets_read (s_subset s) (r_subset_key e) /\
        meets_read (s_class s) (r_class_key e) /\ meets_read (s_processor s) (r_processor_key e) /\
        meets_read (s_annotator s) (r_annotator d e) /\ meets_read (s_annotatortype s) (r_annotatortype d e))).
  { intros k H. destruct (get_elementdata d k) as [e|].
    - eapply rand_meets in H; [rewrite H; split; [intros P; exists e; split; [reflexivity|exact P]|intros (e' & Q & P); injection Q as <-; exact P]| |].
      { intros b' Hb. injection Hb as <-. apply group_crit_spec. }
      apply rand_meets; [intros b' Hb; rewrite (crit_spec _ et_eqb_iff _ _ _ Hb); unfold meets_read; split; [intros [->|(v & V & M)]; [exact I|congruence]|eauto]|].
      apply rand_meets; [intros b' Hb; exact (crit_spec _ nat_eqb_iff _ _ _ Hb)|].
      apply rand_meets; [intros b' Hb; exact (crit_spec _ nat_eqb_iff _ _ _ Hb)|].
      apply rand_meets; [intros b' Hb; exact (crit_spec _ nat_eqb_iff _ _ _ Hb)|].
      apply rand_meets; [intros b' Hb; exact (crit_spec _ nat_eqb_iff _ _ _ Hb)|].
      apply rand_meets; [intros b' Hb; exact (crit_spec _ String.eqb_eq _ _ _ Hb)|].
      intros b' Hb; exact (crit_spec _ pt_eqb_iff _ _ _ Hb).
    - injection H as <-. split; [discriminate|]. intros (e & Q & _). discriminate. }
  assert (D : negb (match s_datatypes s with [] => true | _ => false end) && negb (existsb (dts_eqb DS_Elements) (s_datatypes s)) = false <-> (s_datatypes s = [] \/ In DS_Elements (s_datatypes s))).
  { rewrite <- dts_mem. destruct (s_datatypes s) as [|x l]; [cbn; tauto|]. cbn [negb andb]. rewrite negb_false_iff. split; [right; assumption|intros [Q|Q]; [discriminate|exact Q]]. }
  intros H. destruct item as [t|k|t|k|e]; cbn in H.
  - injection H as <-. apply dts_mem.
  - destruct (negb _ && negb _) eqn:N.
    + injection H as <-. split; [discriminate|]. intros (Q & _). apply D in Q. discriminate.
    + destruct D as (D & _). specialize (D eq_refl). rewrite (E k H). cbn. tauto.
  - injection H as <-. apply dts_mem.
  - destruct (negb _ && negb _) eqn:N.
    + injection H as <-. split; [discriminate|]. intros (Q & _). apply D in Q. discriminate.
    + destruct D as (D & _). specialize (D eq_refl). rewrite (E k H). cbn. tauto.
  - injection H as <-. split; [discriminate|intros []].
Qed.
Lemma alternatives_eq s : alternatives s = s :: match s_next s with Some n => alternatives n | None => [] end.
Proof. destruct s. reflexivity. Qed.
Lemma selector_ind' (P : selector -> Prop) : (forall s, (forall n, s_next s = Some n -> P n) -> P s) -> forall s, P s.
Proof. intros H. fix IH 1. intros s. apply H. destruct s as [a b c e f g h i j k l [n|]]; cbn; [|discriminate]. intros m Q. injection Q as <-. apply IH. Qed.
Lemma matches_spec s d item b : matches s d item = Ok b -> (b = true <-> accepts d s item).
Proof.
  revert b. induction s as [s IH] using selector_ind'. intros b H. rewrite matches_eq in H. unfold accepts. rewrite alternatives_eq. destruct (s_next s) as [n|].
  - specialize (IH n eq_refl). destruct (this_matches s d item) as [[|]| | |] eqn:T; cbn in H; try discriminate.
    + injection H as <-. apply this_matches_spec in T. split; [|reflexivity]. intros _. exists s. split; [left; reflexivity|]. apply T, eq_refl.
    + apply this_matches_spec in T. specialize (IH b H). unfold accepts in IH. rewrite IH. split.
      * intros (a & I & A). exists a. split; [right; exact I|exact A].
      * intros (a & [<-|I] & A); [apply T in A; discriminate|eauto].
  - apply this_matches_spec in H. rewrite H. split.
    + intros A. exists s. split; [left; reflexivity|exact A].
    + intros (a & [<-|[]] & A). exact A.
Qed.
Lemma matchable_spec s : matchable s = false <-> hopeless_selector s.
Proof.
  unfold matchable, hopeless_selector, hopeless. rewrite !andb_false_iff, !negb_false_iff.
  assert (E : forall A (c : cmp A), cmp_is_unmatchable c = true <-> c = CUnmatchable) by (intros A c; destruct c; cbn; split; congruence).
  rewrite !E. tauto.
Qed.

(* ---------------------------------------------------------------- the bookkeeping of returned spans *)
Definition marked (ret : list bool) (off k : nat) : Prop := (off <= k)%nat /\ nth_error ret (k - off) = Some true.
Lemma nth_repeat_false n i : nth_error (repeat false n) i <> Some true.
Proof. intros H. apply nth_error_In in H. apply repeat_spec in H. discriminate. Qed.
Lemma already_returned_spec ret off k b ret' off' : already_returned ret off k = (b, (ret', off')) ->
  (b = true <-> marked ret off k) /\ forall j, marked ret' off' j <-> j = k \/ marked ret off j.
Proof.
  unfold already_returned.
  set (o := match ret with [] => if Nat.eqb off 0 then k else off | _ => off end).
  assert (O : forall j, marked ret off j <-> marked ret o j).
  { intros j. unfold o. destruct ret; [|tauto]. unfold marked. split; intros (_ & H); destruct (j - _); discriminate H. }
  intros H. rewrite O. setoid_rewrite O. clearbody o. clear O off.
  destruct (Nat.ltb_spec k o) as [L|L].
  - injection H as <- <- <-. split.
    + split; [discriminate|]. intros (Q & _). lia.
    + intros j. unfold marked. split.
      * intros (Q & N). destruct (Nat.eq_dec j k) as [->|NE]; [left; reflexivity|right].
        destruct (j - k) as [|m] eqn:E; [lia|]. cbn in N.
        destruct (Nat.lt_ge_cases m (o - k - 1)) as [LT|GE].
        -- rewrite nth_error_app_l in N by (rewrite repeat_length; exact LT). destruct (nth_repeat_false _ _ N).
        -- rewrite nth_error_app2 in N by (rewrite repeat_length; exact GE). rewrite repeat_length in N. split; [lia|]. replace (j - o) with (m - (o - k - 1)) by lia. exact N.
      * intros [->|(Q & N)]; [rewrite Nat.sub_diag; split; [lia|reflexivity]|]. split; [lia|]. replace (j - k) with (S (o - k - 1 + (j - o))) by lia. cbn.
        rewrite nth_error_app2 by (rewrite repeat_length; lia). rewrite repeat_length. replace (o - k - 1 + (j - o) - (o - k - 1)) with (j - o) by lia. exact N.
  - destruct (Nat.leb_spec (length ret) (k - o)) as [B|B].
    + injection H as <- <- <-. split.
      * split; [discriminate|]. intros (_ & N). apply nth_error_lt in N. lia.
      * intros j. unfold marked. rewrite nth_error_set_nth. destruct (Nat.eqb_spec (j - o) (k - o)) as [E|E].
        -- split.
           ++ intros (Q & _). left. lia.
           ++ intros [->|(Q & N)]; [|rewrite E in N; apply nth_error_lt in N; lia]. split; [exact L|].
              match goal with |- (if ?x then _ else _) = _ => assert (Z : x = true) end; [|rewrite Z; reflexivity]. apply Nat.ltb_lt. rewrite app_length, repeat_length. destruct (length ret); lia.
        -- split.
           ++ intros (Q & N). right. split; [exact Q|]. destruct (Nat.lt_ge_cases (j - o) (length ret)) as [LT|GE].
              ** rewrite nth_error_app_l in N by exact LT. exact N.
              ** rewrite nth_error_app2 in N by exact GE. destruct (nth_repeat_false _ _ N).
           ++ intros [->|(Q & N)]; [congruence|]. split; [exact Q|]. rewrite nth_error_app_l; [exact N|]. apply nth_error_lt in N. exact N.
    + destruct (nth_error ret (k - o)) as [v|] eqn:N; [|apply nth_error_None in N; lia]. destruct v.
      * injection H as <- <- <-. split; [split; [intros _; split; [exact L|exact N]|reflexivity]|]. intros j. split; [auto|]. intros [->|M]; [split; [exact L|exact N]|exact M].
      * injection H as <- <- <-. split; [split; [discriminate|]; intros (_ & M); congruence|].
        intros j. unfold marked. rewrite nth_error_set_nth. destruct (Nat.eqb_spec (j - o) (k - o)) as [E|E].
        -- split; [intros (Q & _); left; lia|]. intros [->|(Q & M)]; [|split; [exact Q|]; rewrite E, N in M; discriminate]. split; [exact L|]. apply Nat.ltb_lt in B. rewrite B. reflexivity.
        -- split; [intros M; right; exact M|]. intros [->|M]; [congruence|exact M].
Qed.

(* ---------------------------------------------------------------- the stack machine walks *)
Scheme walk_mut := Induction for walk Sort Prop with walk_data_mut := Induction for walk_data Sort Prop.
Combined Scheme walk_both from walk_mut, walk_data_mut.

Inductive rest_of (d : document) (r : recursion) : list (nat * nat) -> list selectitem -> Prop :=
  | rest_nil : rest_of d r [] []
  | rest_cons k c st e l m : get_elementdata d k = Some e -> walk_data d r (S (length st)) k (e_type e) c (skipn c (e_data e)) l ->
      rest_of d r st m -> rest_of d r ((k, c) :: st) (l ++ m).

Definition outcome (d : document) (s : selector) (sp : bool) (seen : list nat) (w l : list selectitem) : Prop :=
  exists m, chosen (fun i => accepts d s (si_data i)) w m /\ if sp then once d seen m l else l = m.

Lemma skipn_some {A} (l : list A) c x : nth_error l c = Some x -> skipn c l = x :: skipn (S c) l.
Proof. revert c. induction l as [|y l IH]; intros [|c] H; try discriminate; cbn in *; [injection H as <-; reflexivity|]. rewrite (IH c H). reflexivity. Qed.
Lemma skipn_none {A} (l : list A) c : nth_error l c = None -> skipn c l = [].
Proof. intros H. apply skipn_all2, nth_error_None, H. Qed.

Lemma span_of_spec d k : span_of d (DElement k) = match get_elementdata d k with Some e => if group_contains EG_Span (e_type e) then Some k else None | None => None end.
Proof. reflexivity. Qed.
Lemma dedup_spec d p item ret off b ret' off' : sp_spanrefs p = true -> dedup d p item ret off = (b, (ret', off')) ->
  match span_of d item with
  | None => b = true /\ ret' = ret /\ off' = off
  | Some k => (b = false <-> marked ret off k) /\ forall j, marked ret' off' j <-> j = k \/ marked ret off j
  end.
Proof.
  intros S. unfold dedup. rewrite S.
  assert (A : forall k, (let (b, st) := already_returned ret off k in (negb b, st)) = (b, (ret', off')) ->
     (b = false <-> marked ret off k) /\ forall j, marked ret' off' j <-> j = k \/ marked ret off j).
  { intros k H. destruct (already_returned ret off k) as [b0 [r0 o0]] eqn:E. injection H as <- <- <-. destruct (already_returned_spec _ _ _ _ _ _ E) as (E1 & E2).
    split; [|exact E2]. rewrite negb_false_iff. exact E1. }
  destruct item as [t|k|t|k|e]; try (intros H; injection H as <- <- <-; cbn; auto); [|intros H; cbn; apply A, H].
  rewrite span_of_spec. destruct (get_elementdata d k) as [e|]; [|intros H; injection H as <- <- <-; auto].
  destruct (group_contains EG_Span (e_type e)); [apply A|intros H; injection H as <- <- <-; auto].
Qed.

(* the mark set carried by the iterator *)
Definition represents (seen : list nat) (st : selstate) : Prop := forall k, In k seen <-> marked (ss_returned st) (ss_offset st) k.
(* next() behaves as "pop, advance, test" *)
Definition running (p : selparams) (st : selstate) : Prop := ss_iteration st <> 0 \/ (matchable (sp_sel p) = true /\ sp_inclusive p = false).
Lemma running_step d p st : running p st -> sel_step d p st = sel_advance d p (mkSS (ss_stack st) (S (ss_iteration st)) (ss_returned st) (ss_offset st)).
Proof.
  unfold running, sel_step. cbn [ss_iteration ss_stack ss_returned ss_offset]. intros [N|(M & I)].
  - destruct (ss_iteration st) as [|n]; [contradiction|]. cbn. rewrite andb_false_r. reflexivity.
  - rewrite M, I, andb_false_r. reflexivity.
Qed.

(* one step of the machine: how the pending items change *)
Lemma advance_spec d p st stp : sel_advance d p st = stp ->
  match stp with
  | StepPanic => True
  | Stop st' => st' = st /\ ss_stack st = []
  | Again st' =>
      (ss_iteration st' = ss_iteration st /\ exists k c, ss_stack st = (k, c) :: ss_stack st' /\ ss_returned st' = ss_returned st /\ ss_offset st' = ss_offset st /\
         exists e, get_elementdata d k = Some e /\ nth_error (e_data e) c = None) \/
      (ss_iteration st' = ss_iteration st /\ exists k c rest e x, ss_stack st = (k, c) :: rest /\ get_elementdata d k = Some e /\ nth_error (e_data e) c = Some x /\
         ss_stack st' = (if rec_eval (sp_rec p) (e_type e) then match x with DElement k' => (k', 0) :: (k, S c) :: rest | _ => (k, S c) :: rest end else (k, S c) :: rest) /\
         ((matches (sp_sel p) d x = Ok false /\ ss_returned st' = ss_returned st /\ ss_offset st' = ss_offset st) \/
          (matches (sp_sel p) d x = Ok true /\ dedup d p x (ss_returned st) (ss_offset st) = (false, (ss_returned st', ss_offset st')))))
  | Yield i st' =>
      ss_iteration st' = ss_iteration st /\ exists k c rest e x, ss_stack st = (k, c) :: rest /\ get_elementdata d k = Some e /\ nth_error (e_data e) c = Some x /\
         ss_stack st' = (if rec_eval (sp_rec p) (e_type e) then match x with DElement k' => (k', 0) :: (k, S c) :: rest | _ => (k, S c) :: rest end else (k, S c) :: rest) /\
         i = mkItem x k c (S (length rest)) /\
         matches (sp_sel p) d x = Ok true /\ dedup d p x (ss_returned st) (ss_offset st) = (true, (ss_returned st', ss_offset st'))
  end.
Proof.
  unfold sel_advance. intros <-. destruct (ss_stack st) as [|[k c] rest] eqn:ES; [auto|].
  destruct (get_elementdata d k) as [e|] eqn:G; [|exact I]. destruct (e_data_at e c) as [x|] eqn:A.
  2:{ left. cbn. split; [reflexivity|]. exists k, c. split; [reflexivity|]. split; [reflexivity|]. split; [reflexivity|]. eauto. }
  destruct (matches (sp_sel p) d x) as [[|]| | |] eqn:M; try exact I.
  - destruct (dedup d p x (ss_returned st) (ss_offset st)) as [b [r o]] eqn:D. destruct b.
    + cbn. split; [reflexivity|]. exists k, c, rest, e, x. repeat (split; [reflexivity || assumption|]). assumption.
    + right. cbn. split; [reflexivity|]. exists k, c, rest, e, x. repeat (split; [reflexivity || assumption|]). right. auto.
  - right. cbn. split; [reflexivity|]. exists k, c, rest, e, x. repeat (split; [reflexivity || assumption|]). left. auto.
Qed.

(* the pending items before and after an advance over item x *)
Lemma rest_advance d r k c rest e x w' : get_elementdata d k = Some e -> nth_error (e_data e) c = Some x ->
  rest_of d r (if rec_eval r (e_type e) then match x with DElement k' => (k', 0) :: (k, S c) :: rest | _ => (k, S c) :: rest end else (k, S c) :: rest) w' ->
  rest_of d r ((k, c) :: rest) (mkItem x k c (S (length rest)) :: w').
Proof.
  intros G N H. pose proof (skipn_some _ _ _ N) as SK.
  assert (STAY : (descends r (e_type e) -> forall q, x <> DElement q) -> rest_of d r ((k, S c) :: rest) w' -> rest_of d r ((k, c) :: rest) (mkItem x k c (S (length rest)) :: w')).
  { intros F R. inversion R as [|? ? ? e' l m G' W R']; subst. rewrite G in G'. injection G' as <-.
    change (mkItem x k c (S (length rest)) :: l ++ m) with ((mkItem x k c (S (length rest)) :: l) ++ m). econstructor; [exact G| |exact R']. rewrite SK. apply walk_stay; assumption. }
  destruct (rec_eval r (e_type e)) eqn:RE.
  - apply rec_eval_spec in RE. destruct x as [t|q|t|q|y]; try (apply STAY; [intros _ q'; discriminate|exact H]).
    inversion H as [|? ? ? e1 l1 m1 G1 W1 R1]; subst. inversion R1 as [|? ? ? e2 l2 m2 G2 W2 R2]; subst. rewrite G in G2. injection G2 as <-.
    replace (mkItem (DElement q) k c (S (length rest)) :: l1 ++ l2 ++ m2) with ((mkItem (DElement q) k c (S (length rest)) :: l1 ++ l2) ++ m2) by (cbn; rewrite app_assoc; reflexivity).
    econstructor; [exact G| |exact R2]. rewrite SK. apply walk_down; [exact RE| |exact W2]. econstructor; [exact G1|exact W1].
  - apply STAY; [|exact H]. intros D. apply rec_eval_spec in D. congruence.
Qed.
Lemma rest_advance_inv d r k c rest e x w : get_elementdata d k = Some e -> nth_error (e_data e) c = Some x -> rest_of d r ((k, c) :: rest) w ->
  exists w', w = mkItem x k c (S (length rest)) :: w' /\
  rest_of d r (if rec_eval r (e_type e) then match x with DElement k' => (k', 0) :: (k, S c) :: rest | _ => (k, S c) :: rest end else (k, S c) :: rest) w'.
Proof.
  intros G N R. inversion R as [|? ? ? e' l m G' W R']; subst. rewrite G in G'. injection G' as <-. rewrite (skipn_some _ _ _ N) in W.
  inversion W as [|? ? ? ? q ? below l' D WK WD|? ? ? ? ? ? l' F WD]; subst.
  - exists (below ++ l' ++ m). split; [cbn; rewrite app_assoc; reflexivity|]. apply rec_eval_spec in D. rewrite D. inversion WK as [? ? e1 ? G1 W1]; subst.
    econstructor; [exact G1|exact W1|]. econstructor; [exact G|exact WD|exact R'].
  - exists (l' ++ m). split; [reflexivity|]. assert (STAY : rest_of d r ((k, S c) :: rest) (l' ++ m)) by (econstructor; eassumption).
    destruct (rec_eval r (e_type e)) eqn:RE; [|exact STAY]. apply rec_eval_spec in RE. destruct x; try exact STAY. exfalso. eapply F; [exact RE|reflexivity].
Qed.
Lemma rest_pop d r k c rest e w : get_elementdata d k = Some e -> nth_error (e_data e) c = None -> rest_of d r rest w <-> rest_of d r ((k, c) :: rest) w.
Proof.
  intros G N. split.
  - intros R. change w with ([] ++ w). econstructor; [exact G| |exact R]. rewrite (skipn_none _ _ N). constructor.
  - intros R. inversion R as [|? ? ? e' l m G' W R']; subst. rewrite G in G'. injection G' as <-. rewrite (skipn_none _ _ N) in W. inversion W; subst. exact R'.
Qed.

Lemma outcome_keep d s sp seen seen' i w l : accepts d s (si_data i) ->
  (sp = true -> match span_of d (si_data i) with None => seen' = seen | Some k => ~ In k seen /\ seen' = k :: seen end) ->
  outcome d s sp seen' w l -> outcome d s sp seen (i :: w) (i :: l).
Proof.
  intros A D (m & C & O). exists (i :: m). split; [apply chosen_keep; assumption|]. destruct sp; [|f_equal; exact O]. specialize (D eq_refl).
  destruct (span_of d (si_data i)) as [k|] eqn:S; [destruct D as (N & ->); eapply once_first; eassumption|subst seen'; apply once_other; assumption].
Qed.
Lemma outcome_skip d s sp seen i w l : ~ accepts d s (si_data i) -> outcome d s sp seen w l -> outcome d s sp seen (i :: w) l.
Proof. intros A (m & C & O). exists m. split; [apply chosen_drop; assumption|exact O]. Qed.
Lemma outcome_again d s seen i k w l : accepts d s (si_data i) -> span_of d (si_data i) = Some k -> In k seen -> outcome d s true seen w l -> outcome d s true seen (i :: w) l.
Proof. intros A S I (m & C & O). exists (i :: m). split; [apply chosen_keep; assumption|]. eapply once_again; eassumption. Qed.

Lemma once_ext d seen l m : once d seen l m -> forall seen', (forall k, In k seen <-> In k seen') -> once d seen' l m.
Proof.
  induction 1 as [seen|seen i l m S _ IH|seen i k l m S N _ IH|seen i k l m S N _ IH]; intros seen' E.
  - constructor.
  - apply once_other; auto.
  - eapply once_first; [exact S|rewrite <- E; exact N|]. apply IH. intros j. cbn. rewrite E. tauto.
  - eapply once_again; [exact S|apply E; exact N|]. auto.
Qed.

(* how the seen set changes when an accepted item passes through the duplicate check *)
Lemma seen_after d p x st b ret off seen : represents seen st -> dedup d p x (ss_returned st) (ss_offset st) = (b, (ret, off)) ->
  (sp_spanrefs p = false /\ b = true /\ (ret, off) = (ss_returned st, ss_offset st)) \/
  (sp_spanrefs p = true /\ match span_of d x with
     | None => b = true /\ (ret, off) = (ss_returned st, ss_offset st)
     | Some k => (b = false <-> In k seen) /\ forall j, marked ret off j <-> In j (k :: seen)
     end).
Proof.
  intros R H. destruct (sp_spanrefs p) eqn:S.
  - right. split; [reflexivity|]. pose proof (dedup_spec _ _ _ _ _ _ _ _ S H) as D. destruct (span_of d x) as [k|].
    + destruct D as (D1 & D2). rewrite (R k). split; [exact D1|]. intros j. rewrite D2. cbn. rewrite (R j). split; intros [Q|Q]; auto.
    + destruct D as (D1 & -> & ->). auto.
  - left. unfold dedup in H. rewrite S in H. injection H as <- <- <-. auto.
Qed.

Lemma collect_sound fuel d p : forall st seen l, running p st -> represents seen st -> sel_collect fuel d p st = Ok l ->
  exists w, rest_of d (sp_rec p) (ss_stack st) w /\ outcome d (sp_sel p) (sp_spanrefs p) seen w l.
Proof.
  induction fuel as [|f IH]; intros st seen l RUN REP H; [discriminate|]. cbn in H. rewrite (running_step d p st RUN) in H.
  set (st0 := mkSS (ss_stack st) (S (ss_iteration st)) (ss_returned st) (ss_offset st)) in H.
  destruct (sel_advance d p st0) as [i st'|st'|st'|] eqn:E; pose proof (advance_spec _ _ _ _ E) as A; cbn beta iota in A.
  - apply rbind_ok in H. destruct H as (l' & H & Q). injection Q as <-.
    destruct A as (IT & k & c & rest & e & x & SK & G & N & SK' & -> & M & D). cbn in SK, D.
    assert (RUN' : running p st') by (left; rewrite IT; discriminate). pose proof (matches_spec _ _ _ _ M) as ACC.
    assert (AC : accepts d (sp_sel p) x) by (apply ACC; reflexivity). clear ACC.
    destruct (seen_after _ _ _ _ _ _ _ _ REP D) as [(S & _ & Q)|(S & Q)].
    + injection Q as Q1 Q2. destruct (IH st' seen l' RUN') as (w & R & O); [unfold represents; rewrite Q1, Q2; exact REP|exact H|].
      exists (mkItem x k c (Datatypes.S (length rest)) :: w). rewrite SK. split; [eapply rest_advance; [exact G|exact N|rewrite <- SK'; exact R]|].
      eapply outcome_keep; [exact AC| |exact O]. rewrite S. discriminate.
    + destruct (span_of d x) as [q|] eqn:SP.
      * destruct Q as (Q1 & Q2). destruct (IH st' (q :: seen) l' RUN') as (w & R & O); [intros j; symmetry; apply Q2|exact H|].
        exists (mkItem x k c (Datatypes.S (length rest)) :: w). rewrite SK. split; [eapply rest_advance; [exact G|exact N|rewrite <- SK'; exact R]|].
        eapply outcome_keep; [exact AC| |exact O]. intros _. cbn [si_data]. rewrite SP. split; [|reflexivity]. intros J. apply Q1 in J. discriminate.
      * destruct Q as (_ & Q). injection Q as Q1 Q2. destruct (IH st' seen l' RUN') as (w & R & O); [unfold represents; rewrite Q1, Q2; exact REP|exact H|].
        exists (mkItem x k c (Datatypes.S (length rest)) :: w). rewrite SK. split; [eapply rest_advance; [exact G|exact N|rewrite <- SK'; exact R]|].
        eapply outcome_keep; [exact AC| |exact O]. intros _. cbn [si_data]. rewrite SP. reflexivity.
  - destruct A as [(IT & k & c & SK & R1 & R2 & e & G & N)|(IT & k & c & rest & e & x & SK & G & N & SK' & D)]; cbn in SK.
    + assert (RUN' : running p st') by (left; rewrite IT; discriminate).
      destruct (IH st' seen l RUN') as (w & R & O); [unfold represents; rewrite R1, R2; exact REP|exact H|]. exists w. split; [|exact O]. rewrite SK. exact (proj1 (rest_pop d (sp_rec p) k c (ss_stack st') e w G N) R).
    + assert (RUN' : running p st') by (left; rewrite IT; discriminate). cbn in D. destruct D as [(M & R1 & R2)|(M & D)]; pose proof (matches_spec _ _ _ _ M) as ACC.
      * destruct (IH st' seen l RUN') as (w & R & O); [unfold represents; rewrite R1, R2; exact REP|exact H|].
        exists (mkItem x k c (Datatypes.S (length rest)) :: w). rewrite SK. split; [eapply rest_advance; [exact G|exact N|rewrite <- SK'; exact R]|].
        apply outcome_skip; [|exact O]. cbn. intros Q. apply ACC in Q. discriminate.
      * assert (AC : accepts d (sp_sel p) x) by (apply ACC; reflexivity). clear ACC.
        destruct (seen_after _ _ _ _ _ _ _ _ REP D) as [(_ & Q & _)|(S & Q)]; [discriminate|]. rewrite S in *.
        destruct (span_of d x) as [q|] eqn:SP; [|destruct Q as (Q & _); discriminate]. destruct Q as (Q1 & Q2).
        assert (I : In q seen) by (apply Q1; reflexivity).
        destruct (IH st' seen l RUN') as (w & R & O); [intros j; rewrite Q2; cbn; split; [auto|intros [<-|]; auto]|exact H|].
        exists (mkItem x k c (Datatypes.S (length rest)) :: w). rewrite SK. split; [eapply rest_advance; [exact G|exact N|rewrite <- SK'; exact R]|].
        eapply outcome_again; [exact AC|exact SP|exact I|exact O].
  - destruct A as (_ & SK). cbn in SK. injection H as <-. exists []. rewrite SK. split; [constructor|]. exists []. split; [constructor|]. destruct (sp_spanrefs p); constructor.
  - discriminate.
Qed.

(* no panic: everything met can be tested *)
Definition testable (d : document) (s : selector) (w : list selectitem) : Prop := forall i, In i w -> exists b, matches s d (si_data i) = Ok b.
Lemma rest_exists d r k c st w : rest_of d r ((k, c) :: st) w -> exists e, get_elementdata d k = Some e.
Proof. intros R. inversion R; subst. eauto. Qed.
Lemma collect_complete d p w : testable d (sp_sel p) w -> forall fuel st, running p st -> rest_of d (sp_rec p) (ss_stack st) w ->
  2 * length w + length (ss_stack st) < fuel -> exists l, sel_collect fuel d p st = Ok l.
Proof.
  intros T fuel. revert w T. induction fuel as [|f IH]; intros w T st RUN R L; [lia|]. cbn. rewrite (running_step d p st RUN).
  set (st0 := mkSS (ss_stack st) (S (ss_iteration st)) (ss_returned st) (ss_offset st)).
  destruct (sel_advance d p st0) as [i st'|st'|st'|] eqn:E; pose proof (advance_spec _ _ _ _ E) as A; cbn beta iota in A.
  - destruct A as (IT & k & c & rest & e & x & SK & G & N & SK' & -> & M & D). cbn in SK. rewrite SK in R.
    destruct (rest_advance_inv _ _ _ _ _ _ _ _ G N R) as (w' & -> & R').
    destruct (IH w') with (st := st') as (l & H); [intros i Hi; apply T; right; exact Hi|left; rewrite IT; discriminate|rewrite SK'; exact R'| |rewrite H; cbn; eauto].
    rewrite SK', SK in *. cbn in L. destruct (rec_eval _ _); [destruct x|]; cbn; lia.
  - destruct A as [(IT & k & c & SK & R1 & R2 & e & G & N)|(IT & k & c & rest & e & x & SK & G & N & SK' & D)]; cbn in SK; rewrite SK in R.
    + apply (IH w T st'); [left; rewrite IT; discriminate|exact (proj2 (rest_pop d (sp_rec p) k c (ss_stack st') e w G N) R)|]. rewrite SK in L. cbn in L. lia.
    + destruct (rest_advance_inv _ _ _ _ _ _ _ _ G N R) as (w' & -> & R').
      apply (IH w') with (st := st'); [intros i Hi; apply T; right; exact Hi|left; rewrite IT; discriminate|rewrite SK'; exact R'|].
      rewrite SK', SK in *. cbn in L. destruct (rec_eval _ _); [destruct x|]; cbn; lia.
  - eauto.
  - exfalso. unfold sel_advance in E. cbn [ss_stack] in E. destruct (ss_stack st) as [|[k c] rest] eqn:SK; [discriminate|]. destruct (rest_exists _ _ _ _ _ _ R) as (e & G). unfold st0 in E. cbn [ss_stack] in E. rewrite G in E.
    destruct (e_data_at e c) as [x|] eqn:N; [|discriminate]. destruct (rest_advance_inv _ _ _ _ _ _ _ _ G N R) as (w' & -> & _).
    destruct (T (mkItem x k c (S (length rest)))) as (b & B); [left; reflexivity|]. cbn in B. rewrite B in E. destruct b; [|discriminate].
    destruct (dedup d p x _ _) as [b0 [r0 o0]]. destruct b0; discriminate.
Qed.
(* without panics or with: over a document that can be walked the iteration ends *)
Lemma collect_terminates d p w : forall fuel st, running p st -> rest_of d (sp_rec p) (ss_stack st) w ->
  2 * length w + length (ss_stack st) < fuel -> sel_collect fuel d p st <> OutOfFuel.
Proof.
  intros fuel. revert w. induction fuel as [|f IH]; intros w st RUN R L; [lia|]. cbn. rewrite (running_step d p st RUN).
  set (st0 := mkSS (ss_stack st) (S (ss_iteration st)) (ss_returned st) (ss_offset st)).
  destruct (sel_advance d p st0) as [i st'|st'|st'|] eqn:E; pose proof (advance_spec _ _ _ _ E) as A; cbn beta iota in A; try discriminate.
  - destruct A as (IT & k & c & rest & e & x & SK & G & N & SK' & -> & M & D). cbn in SK. rewrite SK in R.
    destruct (rest_advance_inv _ _ _ _ _ _ _ _ G N R) as (w' & -> & R').
    assert (Q : sel_collect f d p st' <> OutOfFuel).
    { apply (IH w'); [left; rewrite IT; discriminate|rewrite SK'; exact R'|]. rewrite SK', SK in *. cbn in L. destruct (rec_eval _ _); [destruct x|]; cbn; lia. }
    destruct (sel_collect f d p st'); cbn; congruence.
  - destruct A as [(IT & k & c & SK & R1 & R2 & e & G & N)|(IT & k & c & rest & e & x & SK & G & N & SK' & D)]; cbn in SK; rewrite SK in R.
    + apply (IH w); [left; rewrite IT; discriminate|exact (proj2 (rest_pop d (sp_rec p) k c (ss_stack st') e w G N) R)|]. rewrite SK in L. cbn in L. lia.
    + destruct (rest_advance_inv _ _ _ _ _ _ _ _ G N R) as (w' & -> & R').
      apply (IH w'); [left; rewrite IT; discriminate|rewrite SK'; exact R'|]. rewrite SK', SK in *. cbn in L. destruct (rec_eval _ _); [destruct x|]; cbn; lia.
Qed.
Lemma collect_mono d p : forall fuel st, sel_collect fuel d p st <> OutOfFuel -> forall fuel', fuel <= fuel' -> sel_collect fuel' d p st = sel_collect fuel d p st.
Proof.
  induction fuel as [|f IH]; intros st H fuel' L; [destruct (H eq_refl)|]. destruct fuel' as [|f']; [lia|]. cbn in *. destruct (sel_step d p st) as [i st'|st'|st'|]; try reflexivity.
  - rewrite (IH st'); [reflexivity| |lia]. intros Q. rewrite Q in H. apply H. reflexivity.
  - apply IH; [exact H|lia].
Qed.

(* ---------------------------------------------------------------- walks *)
Lemma walk_det d r : (forall n k l, walk d r n k l -> forall l', walk d r n k l' -> l = l') /\
  (forall n k t i x l, walk_data d r n k t i x l -> forall l', walk_data d r n k t i x l' -> l = l').
Proof.
  apply walk_both.
  - intros n k e l G _ IH l' H. inversion H as [? ? e' ? G' W]; subst. rewrite G in G'. injection G' as <-. apply IH, W.
  - intros n k t i l' H. inversion H; reflexivity.
  - intros n k t i c rest below l D _ IH1 _ IH2 l' H. inversion H as [|? ? ? ? ? ? b' m' D' W1 W2|? ? ? ? ? ? m' F W2]; subst.
    + rewrite (IH1 _ W1), (IH2 _ W2). reflexivity.
    + exfalso. eapply F; [exact D|reflexivity].
  - intros n k t i x rest l F _ IH l' H. inversion H as [|? ? ? ? ? ? b' m' D' W1 W2|? ? ? ? ? ? m' F' W2]; subst.
    + exfalso. eapply F; [exact D'|reflexivity].
    + rewrite (IH _ W2). reflexivity.
Qed.
Lemma rest_start d r k w : rest_of d r [(k, 0)] w <-> walk d r 1 k w.
Proof.
  split.
  - intros R. inversion R as [|? ? ? e l m G W R']; subst. inversion R'; subst. rewrite app_nil_r. econstructor; eassumption.
  - intros W. inversion W as [? ? e ? G WD]; subst. rewrite <- (app_nil_r w). econstructor; [exact G|exact WD|constructor].
Qed.

(* the items of a walk, by the path that leads to the element that holds them *)
Lemma walk_items d r : (forall n k w, walk d r n k w -> forall i, In i w <->
     exists x m e, path d r k x m /\ get_elementdata d x = Some e /\ nth_error (e_data e) (si_cursor i) = Some (si_data i) /\ si_parent i = x /\ si_depth i = n + m) /\
  (forall n k t j l w, walk_data d r n k t j l w -> forall i, In i w <->
     (j <= si_cursor i /\ nth_error l (si_cursor i - j) = Some (si_data i) /\ si_parent i = k /\ si_depth i = n) \/
     (descends r t /\ exists c, In (DElement c) l /\ exists x m e, path d r c x m /\ get_elementdata d x = Some e /\
        nth_error (e_data e) (si_cursor i) = Some (si_data i) /\ si_parent i = x /\ si_depth i = S n + m)).
Proof.
  apply walk_both.
  - intros n k e w G _ IH i. rewrite IH. split.
    + intros [(_ & N & P & D)|(D & c & I & x & m & e' & P & G' & N & Q1 & Q2)].
      * exists k, 0, e. rewrite Nat.sub_0_r in N. repeat split; auto; [constructor|lia].
      * exists x, (S m), e'. repeat split; auto; [|lia]. econstructor; eassumption.
    + intros (x & m & e' & P & G' & N & Q1 & Q2). inversion P as [a|a e1 c y m' G1 D I P']; subst.
      * left. rewrite G in G'. injection G' as <-. rewrite Nat.sub_0_r. repeat split; auto; lia.
      * right. rewrite G in G1. injection G1 as <-. split; [exact D|]. exists c. split; [exact I|]. exists (si_parent i), m', e'. repeat split; auto. lia.
  - intros n k t j i. split; [intros []|]. intros [(_ & N & _)|(_ & c & [] & _)]. destruct (si_cursor i - j); discriminate.
  - intros n k t j c rest below l D _ IH1 _ IH2 i. cbn [In]. rewrite in_app_iff, IH1, IH2. split.
    + intros [<-|[(x & m & e & P & G & N & Q1 & Q2)|[(L & N & Q1 & Q2)|(_ & c' & I & E)]]].
      * left. cbn. rewrite Nat.sub_diag. auto.
      * right. split; [exact D|]. exists c. split; [auto|]. exists x, m, e. repeat split; auto.
      * left. replace (si_cursor i - j) with (S (si_cursor i - S j)) by lia. repeat split; auto; lia.
      * right. split; [exact D|]. exists c'. split; [auto|exact E].
    + intros [(L & N & Q1 & Q2)|(_ & c' & [E|I] & X)].
      * destruct (si_cursor i - j) as [|q] eqn:EQ; cbn in N.
        -- left. injection N as N. destruct i; cbn in *. subst. f_equal. lia.
        -- right. right. left. replace (si_cursor i - S j) with q by lia. repeat split; auto; lia.
      * injection E as <-. right. left. exact X.
      * right. right. right. split; [exact D|]. eauto.
  - intros n k t j y rest l F _ IH i. cbn [In]. rewrite IH. split.
    + intros [<-|[(L & N & Q1 & Q2)|(D & c' & I & E)]].
      * left. cbn. rewrite Nat.sub_diag. auto.
      * left. replace (si_cursor i - j) with (S (si_cursor i - S j)) by lia. repeat split; auto; lia.
      * right. split; [exact D|]. exists c'. split; [auto|exact E].
    + intros [(L & N & Q1 & Q2)|(D & c' & [E|I] & X)].
      * destruct (si_cursor i - j) as [|q] eqn:EQ; cbn in N.
        -- left. injection N as N. destruct i; cbn in *. subst. f_equal. lia.
        -- right. left. replace (si_cursor i - S j) with q by lia. repeat split; auto; lia.
      * exfalso. eapply F; eassumption.
      * right. right. split; [exact D|]. eauto.
Qed.

(* ---------------------------------------------------------------- ancestors *)
Lemma anc_inv d a x : ancestor d a x -> exists p, parent_of d x = Some p /\ (p = a \/ ancestor d a p).
Proof. intros H. destruct H as [x H|x b H1 H2]; eauto. Qed.
Lemma anc_trans d y z x : ancestor d y z -> ancestor d z x -> ancestor d y x.
Proof. intros H1 H2. induction H2; [eapply anc_up; eassumption|eapply anc_up; eassumption]. Qed.
Definition asc (d : document) (a x : nat) : Prop := a = x \/ ancestor d a x.
(* two elements above the same element are above each other *)
Lemma asc_linear d x : forall a, ancestor d a x -> forall b, asc d b x -> asc d a b \/ asc d b a.
Proof.
  intros a H. induction H as [x H|x c H1 H2 IH]; intros b [->|B].
  - left. right. apply anc_parent, H.
  - destruct (anc_inv _ _ _ B) as (p & P & Q). rewrite H in P. injection P as <-. right. destruct Q as [->|Q]; [left; reflexivity|right; exact Q].
  - left. right. eapply anc_up; eassumption.
  - destruct (anc_inv _ _ _ B) as (p & P & Q). rewrite H1 in P. injection P as <-. apply IH. destruct Q as [->|Q]; [left; reflexivity|right; exact Q].
Qed.
(* of two different children of one element neither is above the other *)
Lemma siblings_apart d k c c' : acyclic d -> parent_of d c = Some k -> parent_of d c' = Some k -> c <> c' -> ~ asc d c c'.
Proof.
  intros A P P' N [Q|Q]; [contradiction|]. destruct (anc_inv _ _ _ Q) as (p & E & B). rewrite P' in E. injection E as <-.
  destruct B as [->|B]; [apply (A c); apply anc_parent, P|]. apply (A k). eapply anc_trans; [|exact B]. apply anc_parent, P.
Qed.

Lemma own_keys_app a b : own_keys (a ++ b) = own_keys a ++ own_keys b.
Proof. unfold own_keys. rewrite map_app. unfold child_keys. apply flat_map_app. Qed.
Lemma own_keys_in w c : In c (own_keys w) <-> exists i, In i w /\ si_data i = DElement c.
Proof.
  unfold own_keys, child_keys. rewrite in_flat_map. split.
  - intros (x & I & J). apply in_map_iff in I. destruct I as (i & <- & I). exists i. split; [exact I|]. destruct (si_data i); cbn in J; try contradiction. destruct J as [->|[]]. reflexivity.
  - intros (i & I & E). exists (si_data i). split; [apply in_map, I|]. rewrite E. left. reflexivity.
Qed.
Lemma child_in d k e c : get_elementdata d k = Some e -> In (DElement c) (e_data e) <-> In c (children_of d k).
Proof.
  intros G. unfold children_of. rewrite G. unfold child_keys. rewrite in_flat_map. split.
  - intros I. exists (DElement c). split; [exact I|left; reflexivity].
  - intros (x & I & J). destruct x; cbn in J; try contradiction. destruct J as [->|[]]. exact I.
Qed.

Lemma walk_nodup d r : consistent d -> acyclic d ->
  (forall n k w, walk d r n k w -> NoDup (own_keys w) /\ forall x, In x (own_keys w) -> ancestor d k x) /\
  (forall n k t j l w, walk_data d r n k t j l w -> NoDup (child_keys l) -> (forall c, In c (child_keys l) -> parent_of d c = Some k) ->
     NoDup (own_keys w) /\ forall x, In x (own_keys w) -> exists c, In c (child_keys l) /\ asc d c x).
Proof.
  intros C A. apply walk_both.
  - intros n k e w G _ IH. destruct (C k) as (ND & CH). unfold children_of in ND, CH. rewrite G in ND, CH. destruct IH as (I1 & I2); [exact ND|intros c; apply CH|].
    split; [exact I1|]. intros x I. destruct (I2 x I) as (c & J & [->|Q]); [apply anc_parent, CH, J|]. eapply anc_trans; [|exact Q]. apply anc_parent, CH, J.
  - intros n k t j _ _. split; [constructor|intros x []].
  - intros n k t j c rest below l D _ IH1 _ IH2 ND PA. change (child_keys (DElement c :: rest)) with (c :: child_keys rest) in *. inversion ND as [|? ? NI ND']; subst.
    destruct IH1 as (I1 & I2). destruct IH2 as (J1 & J2); [exact ND'|intros q Q; apply PA; right; exact Q|].
    change (own_keys (mkItem (DElement c) k j n :: below ++ l)) with (c :: own_keys (below ++ l)). rewrite own_keys_app.
    assert (X : forall x c', asc d c x -> In c' (child_keys rest) -> asc d c' x -> False).
    { intros x c' Hc I' Hc'. assert (NE : c <> c') by (intros ->; contradiction). assert (P : parent_of d c = Some k) by (apply PA; left; reflexivity). assert (P' : parent_of d c' = Some k) by (apply PA; right; exact I').
      pose proof (siblings_apart d k c c' A P P' NE) as S1. pose proof (siblings_apart d k c' c A P' P (not_eq_sym NE)) as S2. destruct Hc as [->|Hc]; [exact (S2 Hc')|].
      destruct (asc_linear d x c Hc c' Hc') as [Q|Q]; [exact (S1 Q)|exact (S2 Q)]. }
    split.
    + constructor.
      * rewrite in_app_iff. intros [Q|Q]; [exact (A c (I2 c Q))|]. destruct (J2 c Q) as (c' & I' & H). eapply X; [left; reflexivity|exact I'|exact H].
      * clear ND. induction (own_keys below) as [|b bs IHb]; [exact J1|]. inversion I1; subst. cbn. constructor; [|apply IHb; [assumption|intros x Hx; apply I2; right; exact Hx]].
        rewrite in_app_iff. intros [Q|Q]; [contradiction|]. destruct (J2 b Q) as (c' & I' & H). eapply X; [right; apply I2; left; reflexivity|exact I'|exact H].
    + cbn [In]. intros x. rewrite in_app_iff. intros [<-|[Q|Q]]; [exists c; split; [left; reflexivity|left; reflexivity]|exists c; split; [left; reflexivity|right; apply I2, Q]|].
      destruct (J2 x Q) as (c' & I' & H). exists c'. split; [right; exact I'|exact H].
  - intros n k t j y rest l F _ IH ND PA. destruct y as [s|c|s|c|e]; try (apply IH; assumption).
    change (child_keys (DElement c :: rest)) with (c :: child_keys rest) in *. inversion ND as [|? ? NI ND']; subst.
    destruct IH as (J1 & J2); [exact ND'|intros q Q; apply PA; right; exact Q|]. change (own_keys (mkItem (DElement c) k j n :: l)) with (c :: own_keys l). split.
    + constructor; [|exact J1]. intros Q. destruct (J2 c Q) as (c' & I' & H). eapply (siblings_apart d k c' c A); [apply PA; right; exact I'|apply PA; left; reflexivity|intros ->; contradiction|exact H].
    + intros x [<-|Q]; [exists c; split; [left; reflexivity|left; reflexivity]|]. destruct (J2 x Q) as (c' & I' & H). exists c'. split; [right; exact I'|exact H].
Qed.

(* ---------------------------------------------------------------- every forest can be walked *)
Lemma get_lt d k e : get_elementdata d k = Some e -> k < length (st_items (doc_elements d)).
Proof. unfold get_elementdata. intros G. apply st_get_lt in G. exact G. Qed.
Lemma walk_exists d r : consistent d -> acyclic d -> forall k, get_elementdata d k <> None -> forall n, exists w, walk d r n k w.
Proof.
  intros C A.
  assert (X : forall m above k n, NoDup above -> (forall a, In a above -> asc d a k) -> In k above -> (forall a, In a above -> get_elementdata d a <> None) ->
     length (st_items (doc_elements d)) < length above + m -> exists w, walk d r n k w).
  { induction m as [|m IH]; intros above k n ND AB IK ST L.
    - exfalso. assert (Q : length above <= length (seq 0 (length (st_items (doc_elements d))))).
      { apply NoDup_incl_length; [exact ND|]. intros a I. apply in_seq. specialize (ST a I). destruct (get_elementdata d a) eqn:G; [|congruence]. apply get_lt in G. lia. }
      rewrite seq_length in Q. lia.
    - pose proof (ST k IK) as STO. destruct (get_elementdata d k) as [e|] eqn:G; [|congruence].
      assert (Y : forall l j, (forall c, In (DElement c) l -> In (DElement c) (e_data e)) -> exists w, walk_data d r n k (e_type e) j l w).
      { induction l as [|y l IHl]; intros j SUB; [exists []; constructor|]. destruct (IHl (S j)) as (w & W); [intros c I; apply SUB; right; exact I|].
        destruct (rec_eval r (e_type e)) eqn:RE.
        - apply rec_eval_spec in RE. destruct y as [s|c|s|c|y]; try (eexists; apply walk_stay; [intros _ c'; discriminate|exact W]).
          assert (I : In c (children_of d k)) by (apply (child_in d k e c G), SUB; left; reflexivity).
          destruct (C k) as (_ & CH). destruct (CH c) as (P & EX). apply P in I as PC. specialize (EX I).
          destruct (IH (c :: above) c (S n)) as (b & B).
          + constructor; [|exact ND]. intros Q. specialize (AB c Q). destruct AB as [->|AB]; [apply (A k); apply anc_parent, PC|]. apply (A c). eapply anc_up; eassumption.
          + intros a [<-|Q]; [left; reflexivity|]. right. destruct (AB a Q) as [->|H]; [apply anc_parent, PC|]. eapply anc_up; eassumption.
          + left. reflexivity.
          + intros a [<-|Q]; [exact EX|apply ST, Q].
          + cbn. lia.
          + eexists. apply walk_down; eassumption.
        - eexists. apply walk_stay; [|exact W]. intros D. apply rec_eval_spec in D. congruence. }
      destruct (Y (e_data e) 0) as (w & W); [auto|]. exists w. econstructor; eassumption. }
  intros k STO n. apply (X (length (st_items (doc_elements d))) [k] k n).
  - constructor; [intros []|constructor].
  - intros a [<-|[]]. left. reflexivity.
  - left. reflexivity.
  - intros a [<-|[]]. exact STO.
  - cbn. lia.
Qed.

Lemma listed_parent d p c : consistent d -> In c (children_of d p) <-> parent_of d c = Some p.
Proof. intros C. apply (C p). Qed.
Lemma listed_exists d p c : consistent d -> In c (children_of d p) -> get_elementdata d c <> None.
Proof. intros C. apply (C p). Qed.
Lemma parent_exists d p c : consistent d -> parent_of d c = Some p -> get_elementdata d p <> None.
Proof. intros C H. apply (listed_parent d p c C) in H. unfold children_of in H. destruct (get_elementdata d p); [discriminate|destruct H]. Qed.
(* with Recursion::Always the elements walked over are the descendants *)
Lemma path_snoc d r a x n c e : path d r a x n -> get_elementdata d x = Some e -> descends r (e_type e) -> In (DElement c) (e_data e) -> path d r a c (S n).
Proof.
  intros P G D I. induction P as [a|a e1 c1 x n G1 D1 I1 P IH].
  - econstructor; [exact G|exact D|exact I|constructor].
  - econstructor; [exact G1|exact D1|exact I1|]. apply IH; assumption.
Qed.
Lemma path_asc d r a x n : consistent d -> path d r a x n -> asc d a x.
Proof.
  intros C P. induction P as [a|a e c x n G D I P IH]; [left; reflexivity|]. right. apply (child_in d a e c G) in I. apply (listed_parent d a c C) in I.
  destruct IH as [<-|IH]; [apply anc_parent, I|]. eapply anc_trans; [|exact IH]. apply anc_parent, I.
Qed.
Lemma anc_path d a c : consistent d -> ancestor d a c -> exists x n e, path d RAlways a x n /\ get_elementdata d x = Some e /\ In (DElement c) (e_data e).
Proof.
  intros C H. induction H as [c H|c b H1 H2 IH].
  - apply (listed_parent d a c C) in H. assert (Q := H). unfold children_of in Q. destruct (get_elementdata d a) as [e|] eqn:G; [|destruct Q].
    exists a, 0, e. split; [constructor|]. split; [exact G|]. apply (child_in d a e c G), H.
  - destruct IH as (x & n & e & P & G & I). apply (listed_parent d b c C) in H1. assert (Q := H1). unfold children_of in Q. destruct (get_elementdata d b) as [e'|] eqn:G'; [|destruct Q].
    exists b, (S n), e'. split; [eapply path_snoc; [exact P|exact G|exact Logic.I|exact I]|]. split; [exact G'|]. apply (child_in d b e' c G'), H1.
Qed.

(* ---------------------------------------------------------------- what later calls do not depend on *)
Definition same_pos (a b : selstate) : Prop := ss_stack a = ss_stack b /\ ss_returned a = ss_returned b /\ ss_offset a = ss_offset b.
Definition same_step (x y : selstep) : Prop :=
  match x, y with
  | Yield i a, Yield j b => i = j /\ same_pos a b /\ (ss_iteration a <> 0 /\ ss_iteration b <> 0)
  | Again a, Again b => same_pos a b /\ (ss_iteration a <> 0 /\ ss_iteration b <> 0)
  | Stop _, Stop _ => True
  | StepPanic, StepPanic => True
  | _, _ => False
  end.
Lemma advance_same d p q a b : sp_sel p = sp_sel q -> sp_rec p = sp_rec q -> sp_spanrefs p = sp_spanrefs q -> same_pos a b ->
  ss_iteration a <> 0 -> ss_iteration b <> 0 -> same_step (sel_advance d p a) (sel_advance d q b).
Proof.
  intros E1 E2 E3 (P1 & P2 & P3) Ia Ib. assert (DD : forall x r o, dedup d p x r o = dedup d q x r o) by (intros; unfold dedup; rewrite E3; reflexivity). unfold sel_advance. rewrite E1, E2, P1, P2, P3. destruct (ss_stack b) as [|[k c] rest]; [exact I|].
  destruct (get_elementdata d k) as [e|]; [|exact I]. destruct (e_data_at e c) as [x|]; [|cbn; unfold same_pos; auto].
  destruct (matches (sp_sel q) d x) as [[|]| | |]; try exact I; [|cbn; unfold same_pos; auto].
  rewrite DD. destruct (dedup d q x (ss_returned b) (ss_offset b)) as [[|] [r o]]; cbn; unfold same_pos; cbn; auto.
Qed.
Lemma collect_same d p q : sp_sel p = sp_sel q -> sp_rec p = sp_rec q -> sp_spanrefs p = sp_spanrefs q -> forall fuel a b, same_pos a b -> running p a -> running q b ->
  sel_collect fuel d p a = sel_collect fuel d q b.
Proof.
  intros E1 E2 E3. induction fuel as [|f IH]; intros a b P Ra Rb; [reflexivity|]. cbn. rewrite (running_step d p a Ra), (running_step d q b Rb).
  pose proof (advance_same d p q (mkSS (ss_stack a) (S (ss_iteration a)) (ss_returned a) (ss_offset a)) (mkSS (ss_stack b) (S (ss_iteration b)) (ss_returned b) (ss_offset b)) E1 E2 E3 P) as H.
  cbn [ss_iteration] in H. specialize (H (Nat.neq_succ_0 _) (Nat.neq_succ_0 _)).
  destruct (sel_advance d p _) as [i a'|a'|a'|], (sel_advance d q _) as [j b'|b'|b'|]; cbn in H; try contradiction; try reflexivity.
  - destruct H as (-> & S & Ia & Ib). rewrite (IH a' b' S); [reflexivity|left; exact Ia|left; exact Ib].
  - destruct H as (S & Ia & Ib). apply IH; [exact S|left; exact Ia|left; exact Ib].
Qed.
(* an inclusive selection: the start item, if accepted, and then what the selection without it gives *)
Lemma collect_inclusive d s r sp key f : matchable s = true ->
  let p := mkSP s r true sp in let q := mkSP s r false sp in
  sel_collect (S f) d p (sel_init key) =
    match root_item d key with
    | Ok (Some (item, parent)) =>
        match matches s d item with
        | Ok true => let? l := sel_collect f d q (sel_init key) in Ok (mkItem item parent 0 0 :: l)
        | Ok false => sel_collect (S f) d q (sel_init key)
        | _ => Panic
        end
    | Ok None => sel_collect (S f) d q (sel_init key)
    | _ => Panic
    end.
Proof.
  intros M p q. unfold p, q.
  assert (X : match sel_advance d (mkSP s r true sp) (mkSS [(key, 0)] 1 [] 0) with
              | Yield i st' => let? l := sel_collect f d (mkSP s r true sp) st' in Ok (i :: l)
              | Again st' => sel_collect f d (mkSP s r true sp) st'
              | Stop _ => Ok []
              | StepPanic => Panic
              end = sel_collect (S f) d (mkSP s r false sp) (sel_init key)).
  { cbn [sel_collect]. rewrite (running_step d (mkSP s r false sp) (sel_init key)); [|right; auto].
    pose proof (advance_same d (mkSP s r true sp) (mkSP s r false sp) (mkSS [(key, 0)] 1 [] 0) (mkSS [(key, 0)] 1 [] 0) eq_refl eq_refl eq_refl) as H.
    specialize (H (conj eq_refl (conj eq_refl eq_refl)) (Nat.neq_succ_0 _) (Nat.neq_succ_0 _)). cbn [sel_init ss_stack ss_iteration ss_returned ss_offset].
    destruct (sel_advance d (mkSP s r true sp) _) as [i a|a|a|], (sel_advance d (mkSP s r false sp) _) as [j b|b|b|]; cbn in H; try contradiction; try reflexivity.
    - destruct H as (-> & S & Ia & Ib). rewrite (collect_same d (mkSP s r true sp) (mkSP s r false sp) eq_refl eq_refl eq_refl f a b S); [reflexivity|left; exact Ia|left; exact Ib].
    - destruct H as (S & Ia & Ib). apply collect_same; try reflexivity; [exact S|left; exact Ia|left; exact Ib]. }
  rewrite <- X. cbn [sel_collect]. unfold sel_step. cbn [sel_init ss_stack ss_iteration ss_returned ss_offset sp_sel sp_inclusive Nat.eqb andb]. rewrite M. cbn [negb].
  destruct (root_item d key) as [[[item parent]|]| | |]; try reflexivity. destruct (matches s d item) as [[|]| | |]; try reflexivity.
  rewrite (collect_same d (mkSP s r true sp) (mkSP s r false sp) eq_refl eq_refl eq_refl f (mkSS [(key, 0)] 1 [] 0) (sel_init key)); [reflexivity|repeat split|left; discriminate|right; auto].
Qed.

(* ---------------------------------------------------------------- the first item *)
Lemma first_of_collect d p : forall fuel st l ks, sel_collect fuel d p st = Ok l -> items_keys d l = Ok ks -> sel_first fuel d p st = Ok (hd_error ks).
Proof.
  induction fuel as [|f IH]; intros st l ks H K; [discriminate|]. cbn in *. destruct (sel_step d p st) as [i st'|st'|st'|]; [|eapply IH; eassumption|injection H as <-; cbn in K; injection K as <-; reflexivity|discriminate].
  apply rbind_ok in H. destruct H as (l' & H & Q). injection Q as <-. cbn in K. destruct (si_data i) as [t|k|t|k|e]; try (eapply IH; eassumption);
  (destruct (get_elementdata d k); [|discriminate]; apply rbind_ok in K; destruct K as (ks' & K & Q); injection Q as <-; reflexivity).
Qed.
Lemma items_keys_ok d l : (forall i k, In i l -> item_key (si_data i) = [k] -> get_elementdata d k <> None) -> items_keys d l = Ok (item_keys l).
Proof.
  induction l as [|i l IH]; intros H; [reflexivity|]. cbn. assert (IHl : items_keys d l = Ok (item_keys l)) by (apply IH; intros j k J; apply H; right; exact J).
  unfold item_keys in *. destruct (si_data i) as [t|k|t|k|e] eqn:E; try exact IHl; cbn [flat_map item_key app];
  (destruct (get_elementdata d k) eqn:G; [rewrite IHl; reflexivity|exfalso; apply (H i k (or_introl eq_refl)); [rewrite E; reflexivity|exact G]]).
Qed.
