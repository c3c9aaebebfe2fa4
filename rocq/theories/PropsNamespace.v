(* C77: only files that declare the namespace of FoLiA load. *)
From Coq Require Import String Ascii List Bool Arith NArith Lia.
From Verif Require Import Base BaseFacts Types TypesFacts SpecTable Attrib AttribFacts Element Store StoreFacts Metadata Document Select DocOps Xml Parser Serialiser History Spec
  FrameFacts InvFacts DocFacts Examples StoreThms InternFacts EncodeFacts PropsEncode LinkFacts TreeFacts ForestFacts SelSpec SelectFacts PropsLinks PropsQuery SerSpec PropsSer ParseSpec ParseFacts PropsParse PropsProv
  NoPanic Returns RoundFacts RoundProv RoundSpec RoundTree PropsRound PropsTree WellSpec LoadOk PropsWell SaveSpec SaveOk PropsSave XmlText XmlTextFacts XmlSpec PropsBytes XmlWell PropsWellFormed.
Import ListNotations.
Open Scope string_scope.

(* x occurs in s *)
Definition occurs (x s : string) : Prop := exists before after, s = before ++ x ++ after.

Lemma occurs_refl s : occurs s s.
Proof. exists "", "". rewrite sapp_nil. reflexivity. Qed.
Lemma occurs_trans x y z : occurs x y -> occurs y z -> occurs x z.
Proof. intros (b & a & ->) (b' & a' & ->). exists (b' ++ b), (a ++ a'). rewrite !sapp_assoc. reflexivity. Qed.
Lemma occurs_left x y : occurs x (x ++ y).
Proof. exists "", y. reflexivity. Qed.
Lemma occurs_right x y : occurs y (x ++ y).
Proof. exists x, "". rewrite sapp_nil. reflexivity. Qed.
Lemma occurs_tail a s : occurs s (String a s).
Proof. apply (occurs_right (String a "")). Qed.
Lemma occurs_empty s : occurs "" s.
Proof. exists "", s. reflexivity. Qed.
Lemma span_parts p s : s = fst (span p s) ++ snd (span p s).
Proof. induction s as [|a s IH]; [reflexivity|]. cbn [span]. destruct (p a); [|reflexivity]. cbn [fst snd append]. rewrite <- IH. reflexivity. Qed.
Lemma span_rest p s : occurs (snd (span p s)) s.
Proof. rewrite (span_parts p s) at 2. apply occurs_right. Qed.
Lemma span_front p s : occurs (fst (span p s)) s.
Proof. rewrite (span_parts p s) at 2. apply occurs_left. Qed.
Lemma until_parts c s : s = fst (until c s) ++ match snd (until c s) with Some r => String c r | None => "" end.
Proof.
  induction s as [|a s IH]; [reflexivity|]. cbn [until]. destruct (Ascii.eqb_spec a c) as [->|]; [reflexivity|]. cbn [fst snd append]. rewrite <- IH. reflexivity.
Qed.
Lemma until_front c s : occurs (fst (until c s)) s.
Proof. rewrite (until_parts c s) at 2. apply occurs_left. Qed.
Lemma until_rest c s : occurs (rest_of (snd (until c s))) s.
Proof.
  rewrite (until_parts c s) at 2. destruct (snd (until c s)) as [r|]; cbn [rest_of]; [|apply occurs_empty]. eapply occurs_trans; [apply (occurs_tail c)|apply occurs_right].
Qed.
Lemma elem_parts s : forall q, exists m, s = fst (elem_until q s) ++ m ++ rest_of (snd (elem_until q s)).
Proof.
  induction s as [|a s IH]; intros q; [exists ""; reflexivity|]. cbn [elem_until].
  destruct q as [c|]; [|destruct (Ascii.eqb a ">")].
  - destruct (IH (if Ascii.eqb a c then None else Some c)) as (m & E). exists m. cbn [fst snd append]. rewrite <- E. reflexivity.
  - exists (String a ""). reflexivity.
  - destruct (IH (if Ascii.eqb a dq || Ascii.eqb a sq then Some a else None)) as (m & E). exists m. cbn [fst snd append]. rewrite <- E. reflexivity.
Qed.
Lemma elem_front q s : occurs (fst (elem_until q s)) s.
Proof. destruct (elem_parts s q) as (m & E). rewrite E at 2. apply occurs_left. Qed.
Lemma elem_rest q s : occurs (rest_of (snd (elem_until q s))) s.
Proof. destruct (elem_parts s q) as (m & E). rewrite E at 2. eapply occurs_trans; [apply occurs_right|apply occurs_right]. Qed.
Lemma drop_occurs s : occurs (drop_last s) s.
Proof.
  assert (K : exists t, s = drop_last s ++ t); [|destruct K as (t & E); rewrite E at 2; apply occurs_left].
  induction s as [|a s (t & IH)]; [exists ""; reflexivity|]. cbn [drop_last]. destruct s as [|b s]; [exists (String a ""); reflexivity|]. exists t. cbn [append]. rewrite <- IH. reflexivity.
Qed.
Lemma front_occurs m s : occurs (substring 0 m s) s.
Proof.
  assert (K : exists t, s = substring 0 m s ++ t); [|destruct K as (t & E); rewrite E at 2; apply occurs_left].
  revert m. induction s as [|a s IH]; intros [|m]; cbn [substring]; try (eexists; reflexivity). destruct (IH m) as (t & E). exists t. cbn [append]. rewrite <- E. reflexivity.
Qed.
Lemma substring_occurs s : forall n m, occurs (substring n m s) s.
Proof.
  induction s as [|a s IH]; intros n m; [destruct n, m; apply occurs_refl|]. destruct n as [|n]; [apply front_occurs|]. cbn [substring]. eapply occurs_trans; [apply IH|apply occurs_tail].
Qed.
Lemma until_str_occurs e s : forall x r, until_str e s = Some (x, r) -> occurs r s.
Proof.
  induction s as [|a s IH]; intros x r H; cbn [until_str] in H.
  - destruct (String.prefix e ""); [|discriminate]. apply (f_equal (fun o => match o with Some (_, y) => y | None => "" end)) in H. cbv beta iota in H. rewrite <- H. apply substring_occurs.
  - destruct (String.prefix e (String a s)); [apply (f_equal (fun o => match o with Some (_, y) => y | None => "" end)) in H; cbv beta iota in H; rewrite <- H; apply substring_occurs|].
    destruct (until_str e s) as [[y q]|] eqn:E; [|discriminate]. cbn [option_map fst snd] in H. injection H as _ <-. eapply occurs_trans; [eapply IH; reflexivity|apply occurs_tail].
Qed.
Lemma raw_occurs n : forall seen s k v, In (Some (k, v)) (raw_attrs n seen s) -> occurs v s.
Proof.
  induction n as [|n IH]; intros seen s k v H; cbn [raw_attrs] in H; [contradiction|].
  set (s0 := snd (span is_space (snd (span (fun a => negb (is_space a)) s)))) in *.
  assert (S0 : occurs s0 s) by (eapply occurs_trans; [apply span_rest|apply span_rest]).
  destruct s0 as [|a s1]; [contradiction|]. destruct (span (fun a => negb (is_space a || Ascii.eqb a "=")) s1) as [k1 r] eqn:E1.
  assert (S1 : occurs r s). { eapply occurs_trans; [|exact S0]. eapply occurs_trans; [|apply occurs_tail]. replace r with (snd (span (fun a => negb (is_space a || Ascii.eqb a "=")) s1)) by (rewrite E1; reflexivity). apply span_rest. }
  pose proof (occurs_trans _ _ _ (span_rest is_space r) S1) as S2. destruct (snd (span is_space r)) as [|b r2]; [destruct H as [H|[]]; discriminate|].
  assert (S3 : occurs (snd (span is_space r2)) s) by (eapply occurs_trans; [apply span_rest|]; eapply occurs_trans; [apply occurs_tail|exact S2]).
  assert (H' : In (Some (k, v)) (if existsb (String.eqb (String a k1)) seen then [None] else match snd (span is_space r2) with
                 | "" => [None]
                 | String q r => if Ascii.eqb q dq || Ascii.eqb q sq then match until q r with (v, Some r) => Some (String a k1, v) :: raw_attrs n (String a k1 :: seen) r | (_, None) => [None] end else [None] end)).
  { destruct (Ascii.eqb_spec b "=") as [->|NE]; [exact H|]. exfalso.
    assert (X : In (Some (k, v)) [None]); [|destruct X as [X|[]]; discriminate]. clear - H NE. destruct b as [[] [] [] [] [] [] [] []]; try exact H; exfalso; apply NE; reflexivity. }
  clear H. destruct (existsb (String.eqb (String a k1)) seen); [destruct H' as [H|[]]; discriminate|]. destruct (snd (span is_space r2)) as [|q r3]; [destruct H' as [H|[]]; discriminate|].
  destruct (Ascii.eqb q dq || Ascii.eqb q sq); [|destruct H' as [H|[]]; discriminate].
  pose proof (until_front q r3) as F. pose proof (until_rest q r3) as R. destruct (until q r3) as [v1 [r4|]]; [|destruct H' as [H|[]]; discriminate]. cbn [fst snd rest_of] in F, R.
  pose proof (occurs_trans _ _ _ (occurs_tail q r3) S3) as S4. destruct H' as [H|H].
  - injection H as _ <-. eapply occurs_trans; eassumption.
  - eapply occurs_trans; [eapply IH; exact H|]. eapply occurs_trans; eassumption.
Qed.
Lemma bindings_occur n seen s p v : In (p, v) (bindings (raw_attrs n seen s)) -> occurs v s.
Proof.
  unfold bindings. rewrite in_flat_map. intros ([[k u]|] & I' & H); [|contradiction]. apply raw_occurs in I'.
  destruct (String.eqb k "xmlns"); [destruct H as [H|[]]; injection H as _ <-; exact I'|]. destruct (String.prefix "xmlns:" k); [destruct H as [H|[]]; injection H as _ <-; exact I'|contradiction].
Qed.
Lemma namespace_bound env name : namespace env name = NsFolia -> exists p, In (p, NSFOLIA) env.
Proof.
  unfold namespace. destruct (find _ env) as [[p u]|] eqn:F; [|discriminate]. destruct (String.eqb_spec u NSFOLIA) as [->|]; [|destruct (str_is_empty u); discriminate].
  intros _. apply find_some in F. exists p. apply F.
Qed.
Lemma read_occurs T n : forall st s name a, occurs s T -> (forall p v, In (p, v) (env_of st) -> occurs v T) -> In (EvStart NsFolia name a) (read_loop n st s) -> occurs NSFOLIA T.
Proof.
  induction n as [|n IH]; intros st s name a0 S E H; cbn [read_loop] in H; [contradiction|]. destruct s as [|a r]; [contradiction|].
  pose proof (occurs_trans _ _ _ (occurs_tail a r) S) as SR. destruct (negb (Ascii.eqb a "<")).
  { pose proof (span_rest (fun a => negb (Ascii.eqb a "<")) (String a r)) as P. destruct (span (fun a => negb (Ascii.eqb a "<")) (String a r)) as [t rest]. destruct H as [H|H]; [discriminate|]. cbn [snd] in P.
    eapply IH; [eapply occurs_trans; [exact P|exact S]|exact E|exact H]. }
  destruct r as [|b r']; [contradiction|]. pose proof (occurs_trans _ _ _ (occurs_tail b r') SR) as SR'.
  destruct (Ascii.eqb b "/").
  { pose proof (until_rest ">" r') as P. destruct (until ">" r') as [x rest]. cbn [snd] in P. destruct st as [|[o b0] st]; [destruct H as [H|[]]; discriminate|]. destruct (String.eqb o (trim_end x)); [|destruct H as [H|[]]; discriminate].
    destruct H as [H|H]; [discriminate|]. eapply IH; [eapply occurs_trans; [exact P|exact SR']| |exact H]. intros p v I'. apply (E p v). cbn [env_of flat_map]. apply in_or_app. right. exact I'. }
  destruct (Ascii.eqb b "!").
  { destruct (String.prefix "--" r'); [|destruct (String.prefix "[CDATA[" r'); [|destruct (String.prefix "DOCTYPE" r')]].
    - destruct (until_str "-->" _) as [[x rest]|] eqn:U; [|destruct H as [H|[]]; discriminate]. destruct H as [H|H]; [discriminate|]. apply until_str_occurs in U.
      eapply IH; [|exact E|exact H]. eapply occurs_trans; [exact U|]. eapply occurs_trans; [apply substring_occurs|exact SR'].
    - destruct (until_str "]]>" _) as [[x rest]|] eqn:U; [|destruct H as [H|[]]; discriminate]. destruct H as [H|H]; [discriminate|]. apply until_str_occurs in U.
      eapply IH; [|exact E|exact H]. eapply occurs_trans; [exact U|]. eapply occurs_trans; [apply substring_occurs|exact SR'].
    - destruct H as [H|H]; [discriminate|]. eapply IH; [|exact E|exact H]. eapply occurs_trans; [apply until_rest|exact SR'].
    - destruct H as [H|[]]; discriminate. }
  destruct (Ascii.eqb b "?").
  { pose proof (until_rest ">" r') as P. destruct (until ">" r') as [x rest]. cbn [snd] in P. destruct (ends_in "?" x); [|destruct H as [H|[]]; discriminate].
    destruct H as [H|H]; [discriminate|]. eapply IH; [eapply occurs_trans; [exact P|exact SR']|exact E|exact H]. }
  pose proof (elem_rest None (String b r')) as P. pose proof (elem_front None (String b r')) as F. destruct (elem_until None (String b r')) as [x rest]. cbn [fst snd] in P, F.
  assert (X : occurs (if ends_in "/" x then drop_last x else x) T).
  { eapply occurs_trans; [|exact SR]. destruct (ends_in "/" x); [eapply occurs_trans; [apply drop_occurs|exact F]|exact F]. }
  pose proof (span_rest (fun a => negb (is_space a)) (if ends_in "/" x then drop_last x else x)) as M.
  destruct (span (fun a => negb (is_space a)) (if ends_in "/" x then drop_last x else x)) as [nm more]. cbn [snd] in M.
  assert (B : forall p v, In (p, v) (bindings (attrs_in more)) -> occurs v T).
  { intros p v I'. apply bindings_occur in I'. eapply occurs_trans; [exact I'|]. eapply occurs_trans; [exact M|exact X]. }
  pose proof (occurs_trans _ _ _ P SR) as PT. destruct (ends_in "/" x).
  - destruct H as [H|H]; [discriminate|]. eapply IH; [exact PT|exact E|exact H].
  - destruct H as [H|H].
    + assert (N : namespace (bindings (attrs_in more) ++ env_of st) nm = NsFolia) by congruence. apply namespace_bound in N. destruct N as (p & I'). apply in_app_or in I'. destruct I' as [I'|I']; [eapply B, I'|eapply E, I'].
    + eapply IH; [exact PT| |exact H]. intros p v I'. cbn [env_of flat_map snd] in I'. apply in_app_or in I'. destruct I' as [I'|I']; [eapply B, I'|eapply E, I'].
Qed.

(* A file that loads declares the namespace of FoLiA: its URI occurs in the file. *)
Theorem C77_namespace : forall fuel O p s d, doc_from_bytes fuel O p s = Ok d -> occurs "http://ilk.uvt.nl/folia" s.
Proof.
  intros * H. destruct (C76_head_partial _ _ _ _ _ H) as (l1 & a1 & l2 & l3 & name & a2 & l4 & E & _).
  apply (read_occurs s (S (String.length s)) [] s "FoLiA" a1); [apply occurs_refl|intros p' v []|]. change (In (EvStart NsFolia "FoLiA" a1) (read_text s)). rewrite E. apply in_or_app. right. left. reflexivity.
Qed.
Print Assumptions C77_namespace.
(* A file written by hand, with a prolog, a prefix and single quotes, loads; with another namespace, or with none, it does not. *)
Definition by_hand (declaration : string) : string :=
  "<?xml version='1.0'?><f:FoLiA " ++ declaration ++ " xml:id='doc' version='2.4.0'><f:metadata type='native'><f:annotations><f:word-annotation/></f:annotations></f:metadata>" ++
  "<f:text xml:id='t'><f:w xml:id='w.1'/></f:text></f:FoLiA>".
Definition loads fuel O p (id s : string) : bool := match doc_from_bytes fuel O p s with Ok d => is_some (get_element_key_by_id d id) | _ => false end.
Lemma loads_spec fuel O p id s : loads fuel O p id s = true -> exists d, doc_from_bytes fuel O p s = Ok d /\ get_element_key_by_id d id <> None.
Proof. unfold loads. intros H. destruct (doc_from_bytes fuel O p s) as [d| | |]; try discriminate. exists d. split; [reflexivity|]. destruct (get_element_key_by_id d id); discriminate. Qed.
Example C77_nonvacuous : (exists d, doc_from_bytes fuel1 rt_oracle no_props (by_hand "xmlns:f='http://ilk.uvt.nl/folia'") = Ok d /\ get_element_key_by_id d "w.1" <> None) /\
  ~ occurs "http://ilk.uvt.nl/folia" (by_hand "xmlns:f='http://www.w3.org/1999/xhtml'") /\ ~ occurs "http://ilk.uvt.nl/folia" (by_hand "").
Proof.
  assert (K : forall x s, has_sub x s = false -> ~ occurs x s).
  { intros x s H (b & a & ->). assert (T : has_sub x (b ++ x ++ a) = true); [|congruence]. clear H. induction b as [|c b IH].
    - change ("" ++ x ++ a) with (x ++ a). assert (P : String.prefix x (x ++ a) = true) by (induction x as [|c x IH]; [destruct a; reflexivity|]; cbn [append String.prefix]; destruct (ascii_dec c c); [exact IH|contradiction]).
      destruct (x ++ a); cbn [has_sub]; rewrite P; reflexivity.
    - cbn [append has_sub]. rewrite IH. apply orb_true_r. }
  split; [apply loads_spec; vm_compute; reflexivity|]. split; apply K; vm_compute; reflexivity.
Qed.
