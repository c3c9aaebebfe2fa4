(* Facts for C71: adding what is not read leaves the text of all that was there. *)
From Coq Require Import String List Bool Arith NArith Lia.
From Verif Require Import Base BaseFacts Types TypesFacts SpecTable Attrib AttribFacts Element Store StoreFacts Metadata Document Select DocOps Text Xml Parser Serialiser History Spec
  FrameFacts InvFacts DocFacts StoreThms InternFacts EncodeFacts LinkFacts TreeFacts ForestFacts TextSpec TextFacts PropsLinks RoundTree TextRound QuietSpec.
Import ListNotations.
Open Scope string_scope.
Open Scope list_scope.

(* one result is the other, unless it ran out of fuel; [b] says which of the two may *)
Definition cmp {A} (b : bool) (x y : res A) : Prop := if b then below x y else below y x.
Lemma cmp_refl {A} b (x : res A) : cmp b x x.
Proof. destruct b; apply below_refl. Qed.
Lemma cmp_bind {A B} b (r r' : res A) (f f' : A -> res B) : cmp b r r' -> (forall a, cmp b (f a) (f' a)) -> cmp b (rbind r f) (rbind r' f').
Proof. destruct b; intros R H; apply below_bind; auto. Qed.

Section Quiet.
Variables (d d1 : document) (p k : nat) (ke : elementdata).
Hypothesis (RD : resolves d) (RD1 : resolves d1).
Hypothesis (CH : forall j x c, get_elementdata d j = Some x -> In (DElement c) (e_data x) -> exists y, get_elementdata d c = Some y /\ e_parent y = Some j).
Hypothesis (SH : shielded d p) (GK : get_elementdata d1 k = Some ke).
Hypothesis (UR : forall pe, get_elementdata d p = Some pe -> unread (e_type pe) (e_type ke)).
(* what was there: the same type, spacing and content, but for the new element in p; references find what they found *)
Hypothesis (OLD : forall j x, get_elementdata d j = Some x -> exists y, get_elementdata d1 j = Some y /\ e_type y = e_type x /\
  (existsb (ab_eqb AB_SPACE) (p_optional_attribs (props (e_type x))) = true -> space_of y = space_of x) /\
  content y = content x ++ (if Nat.eqb j p then [DElement k] else [])).
Hypothesis (REF : forall w we we', get_elementdata d w = Some we -> get_elementdata d1 w = Some we' -> e_type we = ET_WordReference ->
  (target d we = None /\ target d1 we' = None) \/ exists j x y, target d we = Some x /\ target d1 we' = Some y /\ get_elementdata d j = Some x /\ get_elementdata d1 j = Some y).

(* the elements whose delimiter may change *)
Inductive exposed : nat -> Prop :=
  | exposed_here e : get_elementdata d p = Some e -> p_textdelimiter (props (e_type e)) = None -> exposed p
  | exposed_up c ce q e : exposed c -> get_elementdata d c = Some ce -> e_parent ce = Some q -> get_elementdata d q = Some e -> p_textdelimiter (props (e_type e)) = None -> exposed q.
Lemma exposed_shielded j : exposed j -> shielded d j /\ exists e, get_elementdata d j = Some e /\ p_textdelimiter (props (e_type e)) = None.
Proof.
  intros X. induction X as [e G N|c ce q e X (S & e' & G' & N') GC P G N]; [eauto|]. split; [|eauto].
  replace e' with ce in N' by congruence. inversion S as [p' e2 G2 N2|p' e2 G2 S2 U]; subst; replace e2 with ce in * by congruence; [contradiction|auto].
Qed.
Lemma exposed_silent j e : exposed j -> get_elementdata d j = Some e -> silent (e_type e) = true.
Proof.
  intros X G. destruct (exposed_shielded j X) as (S & e' & G' & N). replace e' with e in N by congruence.
  inversion S as [p' e2 G2 N2|p' e2 G2 S2 U]; subst; replace e2 with e in * by congruence; [contradiction|exact S2].
Qed.

Lemma last_lift l : (forall c, In (DElement c) l -> exists x, get_elementdata d c = Some x) ->
  match last_element d l, last_element d1 l with
  | Some x, Some y => exists c, In (DElement c) l /\ get_elementdata d c = Some x /\ get_elementdata d1 c = Some y
  | None, None => True | _, _ => False end.
Proof.
  induction l as [|x l IH]; intros H; [exact I|]. cbn [last_element].
  assert (H' : forall c, In (DElement c) l -> exists x, get_elementdata d c = Some x) by (intros c I'; apply H; right; exact I'). specialize (IH H').
  destruct (last_element d l) as [a|], (last_element d1 l) as [b|]; try contradiction; [destruct IH as (c & I' & A & B); exists c; split; [right; exact I'|auto]|].
  destruct x; try exact I. destruct (H k0 (or_introl eq_refl)) as (x & G). destruct (OLD k0 x G) as (y & G1 & _). rewrite G, G1. exists k0. split; [left; reflexivity|auto].
Qed.
Lemma content_in j x c : get_elementdata d j = Some x -> In (DElement c) (content x) -> exists y, get_elementdata d c = Some y /\ e_parent y = Some j.
Proof. intros G I'. apply filter_In in I'. eapply CH; [exact G|apply I']. Qed.

(* the delimiters of the other elements stay *)
Lemma delimiter_stays rt : forall f j x y, get_elementdata d j = Some x -> get_elementdata d1 j = Some y -> ~ exposed j -> get_textdelimiter f d1 rt y = get_textdelimiter f d rt x.
Proof.
  induction f as [|f IH]; intros j x y G G1 N; [reflexivity|]. destruct (OLD j x G) as (y' & G' & T & S & C). replace y' with y in * by congruence.
  cbn [get_textdelimiter]. rewrite T. destruct (p_textdelimiter (props (e_type x))) as [s|] eqn:D.
  - destruct (existsb _ _) eqn:E; [rewrite (S eq_refl)|]; reflexivity.
  - rewrite <- (last_kept d), <- (last_kept d1). change (RoundTree.kept (e_data x)) with (content x). change (RoundTree.kept (e_data y)) with (content y). rewrite C.
    destruct (Nat.eqb_spec j p) as [->|NE]; [exfalso; apply N; eapply exposed_here; eassumption|]. rewrite app_nil_r.
    assert (L := last_lift (content x) (fun c I' => match content_in j x c G I' with ex_intro _ z (conj A _) => ex_intro _ z A end)).
    destruct (last_element d (content x)) as [a|], (last_element d1 (content x)) as [b|]; try contradiction; [|reflexivity].
    destruct L as (c & I' & GA & GB). apply (IH c); auto. intros X. apply N. destruct (content_in j x c G I') as (z & GZ & PZ). eapply exposed_up; eassumption.
Qed.

Definition up (b : bool) (f : nat) : nat := if b then S f else f.
(* elements that were there *)
Definition old (x y : elementdata) : Prop := exists j, get_elementdata d j = Some x /\ get_elementdata d1 j = Some y.
Lemma old_type x y : old x y -> e_type y = e_type x.
Proof. intros (j & G & G1). destruct (OLD j x G) as (y' & G' & T & _). congruence. Qed.
Lemma silent_text f D a b st rt e q : silent (e_type e) = true -> text_by_key f D a b st rt e q = match f with 0 => OutOfFuel | S _ => Err ENoText end.
Proof.
  intros S. destruct (silent_types _ S) as (C & PH & _ & _). destruct f; [reflexivity|]. cbn [text_by_key]. cbv zeta. rewrite C.
  replace (negb (p_printable (props (e_type e))) || p_hidden (props (e_type e))) with true; [reflexivity|]. destruct PH as [-> | ->]; [reflexivity|]. destruct (negb _); reflexivity.
Qed.
Section Step.
Variables (b : bool) (f set cls : nat) (rt : bool).
Hypothesis (IHT : forall st x y q, old x y -> cmp b (text_by_key f d set cls st rt x q) (text_by_key (up b f) d1 set cls st rt y q)).
Lemma container_stays st l : (forall c, In (DElement c) l -> exists x, get_elementdata d c = Some x) ->
  forall acc l' , (forall acc', cmp b (container_loop d (fun c => text_by_key f d set cls st rt c None) acc' []) (container_loop d1 (fun c => text_by_key (up b f) d1 set cls st rt c None) acc' l')) ->
  cmp b (container_loop d (fun c => text_by_key f d set cls st rt c None) acc l) (container_loop d1 (fun c => text_by_key (up b f) d1 set cls st rt c None) acc (l ++ l')).
Proof.
  induction l as [|x l IH]; intros H acc l' E; [apply E|]. assert (H' : forall c, In (DElement c) l -> exists x, get_elementdata d c = Some x) by (intros c I'; apply H; right; exact I').
  cbn [app container_loop]. destruct x; try (apply IH; assumption). destruct (H k0 (or_introl eq_refl)) as (x & G). destruct (OLD k0 x G) as (y & G1 & T & _). rewrite G, G1. cbv zeta. rewrite T.
  destruct (p_printable (props (e_type x))); [|apply IH; assumption]. apply cmp_bind; [apply IHT; exists k0; auto|]. intros a. apply IH; assumption.
Qed.
Lemma part_stays x y st : old x y ->
  cmp b (text_part (text_by_key f d set cls false rt) (get_textdelimiter f d rt) x st) (text_part (text_by_key (up b f) d1 set cls false rt) (get_textdelimiter (up b f) d1 rt) y st).
Proof.
  intros (j & G & G1). destruct st as [t s]. unfold text_part. destruct (silent (e_type x)) eqn:S.
  - pose proof (old_type x y (ex_intro _ j (conj G G1))) as T. assert (S1 : silent (e_type y) = true) by (rewrite T; exact S). rewrite (silent_text f d), (silent_text (up b f) d1) by assumption.
    destruct b; cbn [up]; [destruct f; [left; reflexivity|right; reflexivity]|destruct f; apply below_refl].
  - assert (NX : ~ exposed j) by (intros X; pose proof (exposed_silent j x X G); congruence).
    assert (Q := IHT false x y (Some s) (ex_intro _ j (conj G G1))).
    assert (DS := fun g => delimiter_stays rt g j x y G G1 NX). assert (DB := delim_S f d rt x). rewrite DS.
    destruct b; cbn [cmp up] in *.
    + destruct Q as [-> | ->]; [left; reflexivity|]. destruct (text_by_key f d set cls false rt x (Some s)); try apply below_refl.
      destruct DB as [-> | ->]; [left; reflexivity|]. destruct (get_textdelimiter f d rt x); apply below_refl.
    + destruct Q as [-> | ->]; [left; reflexivity|]. destruct (text_by_key f d1 set cls false rt y (Some s)); apply below_refl.
Qed.
Definition old_option (a b : option elementdata) : Prop := match a, b with Some x, Some y => old x y | None, None => True | _, _ => False end.
(* the two loops end alike *)
Definition cmp_loop (r r' : res (string * option elementdata)) : Prop :=
  (if b then r else r') = OutOfFuel \/ match r, r' with
  | Ok (t, c), Ok (t', c') => t' = t /\ old_option c c'
  | Err x, Err y => x = y | Panic, Panic => True | _, _ => False end.
Lemma cmp_loop_bind (r r' : res (string * string)) g g' : cmp b r r' -> (forall a, cmp_loop (g a) (g' a)) -> cmp_loop (rbind r g) (rbind r' g').
Proof.
  unfold cmp_loop, cmp. intros Q H. destruct b; destruct Q as [-> | ->]; cbn [rbind]; try (left; reflexivity).
  - destruct r as [a| | |]; cbn [rbind]; [apply (H a)|right; reflexivity|right; exact I|left; reflexivity].
  - destruct r' as [a| | |]; cbn [rbind]; [apply (H a)|right; reflexivity|right; exact I|left; reflexivity].
Qed.
Lemma children_stay l : (forall c, In (DElement c) l -> exists x, get_elementdata d c = Some x) ->
  forall st tc tc' l', old_option tc tc' -> (forall st tc tc', old_option tc tc' -> cmp_loop (Ok (fst st, tc)) (children_loop d1 (text_by_key (up b f) d1 set cls false rt) (get_textdelimiter (up b f) d1 rt) st tc' l')) ->
  cmp_loop (children_loop d (text_by_key f d set cls false rt) (get_textdelimiter f d rt) st tc l) (children_loop d1 (text_by_key (up b f) d1 set cls false rt) (get_textdelimiter (up b f) d1 rt) st tc' (l ++ l')).
Proof.
  induction l as [|x l IH]; intros H st tc tc' l' TC E; [cbn [app children_loop]; apply E, TC|]. assert (H' : forall c, In (DElement c) l -> exists x, get_elementdata d c = Some x) by (intros c I'; apply H; right; exact I').
  cbn [app children_loop]. destruct x; try (apply IH; assumption). destruct (H k0 (or_introl eq_refl)) as (x & G). destruct (OLD k0 x G) as (y & G1 & T & _). rewrite G, G1, T.
  destruct (text_child (e_type x)).
  - apply cmp_loop_bind; [apply part_stays; exists k0; auto|]. intros a. apply IH; assumption.
  - destruct (et_eqb_spec (e_type x) ET_WordReference) as [W|W].
    + rewrite RD, RD1. cbn [rbind]. destruct (REF k0 x y G G1 W) as [(-> & ->)|(j & a & a' & -> & -> & GA & GA1)]; [apply IH; assumption|].
      apply cmp_loop_bind; [apply part_stays; exists j; auto|]. intros z. apply IH; assumption.
    + destruct (et_eqb (e_type x) ET_TextContent); apply IH; try assumption. exists k0. auto.
Qed.
End Step.
Theorem text_stays b rt set cls : forall f st x y q, old x y -> cmp b (text_by_key f d set cls st rt x q) (text_by_key (up b f) d1 set cls st rt y q).
Proof.
  induction f as [|f IH]; intros st x y q OXY; [destruct b; left; reflexivity|].
  assert (U : up b (S f) = S (up b f)) by (destruct b; reflexivity). rewrite U. clear U. pose proof (old_type x y OXY) as T. destruct OXY as (j & G & G1).
  destruct (silent (e_type x)) eqn:SX. { rewrite !silent_text by congruence. apply cmp_refl. }
  destruct (OLD j x G) as (y' & G' & _ & _ & C). replace y' with y in C by congruence. clear y' G'.
  assert (HC : forall c, In (DElement c) (content x) -> exists x, get_elementdata d c = Some x) by (intros c I'; destruct (content_in j x c G I') as (z & Z & _); eauto).
  assert (KU : j = p -> silent (e_type ke) = true /\ (p_textcontainer (props (e_type x)) = true -> p_printable (props (e_type ke)) = false)).
  { intros ->. destruct (UR x G) as [Q|Q]; [congruence|exact Q]. }
  cbn [text_by_key]. cbv zeta. rewrite T. destruct (p_textcontainer (props (e_type x))) eqn:TCX.
  - rewrite <- (container_kept d1 _ (e_data y)), <- (container_kept d _ (e_data x)). change (RoundTree.kept (e_data x)) with (content x). change (RoundTree.kept (e_data y)) with (content y). rewrite C.
    apply (container_stays b f set cls rt IH st (content x) HC). intros acc. destruct (Nat.eqb_spec j p) as [E|NE]; [|apply cmp_refl]. destruct (KU E) as (_ & NP). specialize (NP eq_refl).
    cbn [container_loop]. rewrite GK. cbv zeta. rewrite NP. apply cmp_refl.
  - destruct (_ || _); [apply cmp_refl|]. rewrite <- (children_kept d1 _ _ (e_data y)), <- (children_kept d _ _ (e_data x)). change (RoundTree.kept (e_data x)) with (content x). change (RoundTree.kept (e_data y)) with (content y). rewrite C.
    assert (CS : cmp_loop b (children_loop d (text_by_key f d set cls false rt) (get_textdelimiter f d rt) ("", "") None (content x))
      (children_loop d1 (text_by_key (up b f) d1 set cls false rt) (get_textdelimiter (up b f) d1 rt) ("", "") None (content x ++ (if Nat.eqb j p then [DElement k] else [])))).
    { apply (children_stay b f set cls rt IH (content x) HC); [exact I|]. intros s tc tc' TC. destruct (Nat.eqb_spec j p) as [E|NE]; [|right; cbn [children_loop]; split; [reflexivity|exact TC]].
      destruct (KU E) as (SK & _). destruct (silent_types _ SK) as (_ & _ & NT & NW). cbn [children_loop]. rewrite GK.
      destruct (text_child (e_type ke)).
      - destruct s as [t1 s1]. unfold text_part. rewrite silent_text by exact SK. destruct b; cbn [up]; [right; cbn [rbind fst]; split; [reflexivity|exact TC]|].
        destruct f; [left; reflexivity|right; cbn [rbind fst]; split; [reflexivity|exact TC]].
      - destruct (et_eqb_spec (e_type ke) ET_WordReference); [contradiction|]. destruct (et_eqb_spec (e_type ke) ET_TextContent); [contradiction|]. right. split; [reflexivity|exact TC]. }
    destruct (children_loop d _ _ _ _ _) as [[t c]|e| |], (children_loop d1 _ _ _ _ _) as [[t' c']|e'| |]; destruct CS as [CS|CS]; try contradiction;
      try (destruct b; discriminate); try (destruct b; [left; reflexivity|discriminate]); try (destruct b; [discriminate|left; reflexivity]); try (destruct b; left; reflexivity).
    + destruct CS as (-> & OC). cbn [rbind]. apply cmp_bind; [|intros a; apply cmp_refl]. unfold old_option in OC. destruct c as [c|], c' as [c'|]; try contradiction; [|apply cmp_refl].
      destruct (str_is_empty t); [|apply cmp_refl]. pose proof (IH false c c' None OC) as Q. destruct b; cbn [cmp] in *; destruct Q as [-> | ->]; try (left; reflexivity); apply below_refl.
    + subst e'. apply cmp_refl.
    + apply cmp_refl.
Qed.
Theorem has_text_stays rt j x y t : get_elementdata d j = Some x -> get_elementdata d1 j = Some y -> (TextSpec.has_text d rt x t <-> TextSpec.has_text d1 rt y t) /\ (TextSpec.no_text d rt x <-> TextSpec.no_text d1 rt y).
Proof.
  intros G G1. assert (O' : old x y) by (exists j; auto). unfold TextSpec.has_text, TextSpec.no_text. split; split.
  - intros (f & H). exists (S f). destruct (text_stays true rt 0 0 f false x y None O') as [Q|Q]; [congruence|]. cbn [up] in Q. congruence.
  - intros (f & H). exists f. destruct (text_stays false rt 0 0 f false x y None O') as [Q|Q]; cbn [up] in Q; congruence.
  - intros (f & z & H). exists (S f), z. destruct (text_stays true rt 0 0 f false x y None O') as [Q|Q]; [congruence|]. cbn [up] in Q. congruence.
  - intros (f & z & H). exists f, z. destruct (text_stays false rt 0 0 f false x y None O') as [Q|Q]; cbn [up] in Q; congruence.
Qed.
End Quiet.
