(* C76 on bytes: what a file that loads must contain, in which order. *)
From Coq Require Import String Ascii List Bool Arith NArith Lia.
From Verif Require Import Base BaseFacts Types TypesFacts SpecTable Attrib AttribFacts Element Store StoreFacts Metadata Document Select DocOps Xml Parser Serialiser History Spec
  FrameFacts InvFacts DocFacts Examples StoreThms InternFacts EncodeFacts PropsEncode LinkFacts TreeFacts ForestFacts SelSpec SelectFacts PropsLinks PropsQuery SerSpec PropsSer ParseSpec ParseFacts PropsParse PropsProv
  NoPanic Returns RoundFacts RoundProv RoundSpec RoundTree PropsRound PropsTree WellSpec LoadOk PropsWell SaveSpec SaveOk PropsSave XmlText XmlTextFacts XmlSpec PropsBytes XmlWell PropsWellFormed PropsNamespace.
Import ListNotations.
Open Scope string_scope.

(* the name of a tag, with or without the prefix of a namespace *)
Definition named (x n : string) : Prop := n = x \/ exists prefix, n = prefix ++ ":" ++ x.
(* the name of a tag ends here: white space, the end of the tag or the end of the file *)
Definition name_ends (rest : string) : Prop := rest = "" \/ exists a r, rest = String a r /\ (a = " "%char \/ a = "009"%char \/ a = "010"%char \/ a = "013"%char \/ a = ">"%char).
(* a start tag and an end tag in the bytes, and what comes after its name *)
Definition start_tag (x bytes rest : string) : Prop := exists n, named x n /\ bytes = "<" ++ n ++ rest /\ name_ends rest.
Definition end_tag (x bytes rest : string) : Prop := exists n, named x n /\ bytes = "</" ++ n ++ rest /\ name_ends rest.

Lemma local_named n x : local_name n = x -> named x n.
Proof.
  unfold local_name. intros <-. pose proof (until_parts ":" n) as P. destruct (until ":" n) as [p [l|]]; cbn [fst snd] in P; [right; exists p; exact P|left; rewrite sapp_nil in P; exact P].
Qed.
Lemma space_ends a r : is_space a = true -> name_ends (String a r).
Proof.
  unfold is_space. intros H. right. exists a, r. split; [reflexivity|]. repeat (apply orb_prop in H; destruct H as [H|H]); apply Ascii.eqb_eq in H; auto.
Qed.
Lemma trim_parts s : exists t, s = trim_end s ++ t /\ (t = "" \/ exists a r, t = String a r /\ is_space a = true).
Proof.
  induction s as [|a s (t & E & T)]; [exists ""; auto|]. cbn [trim_end]. cbv zeta. destruct (is_space a && str_is_empty (trim_end s)) eqn:B.
  - apply andb_prop in B. exists (String a s). split; [reflexivity|]. right. exists a, s. split; [reflexivity|apply B].
  - exists t. split; [cbn [append]; rewrite <- E; reflexivity|exact T].
Qed.
Lemma elem_exact s : forall q, s = fst (elem_until q s) ++ match snd (elem_until q s) with Some r => String ">" r | None => "" end.
Proof.
  induction s as [|a s IH]; intros q; [reflexivity|]. cbn [elem_until]. destruct q as [c|]; [|destruct (Ascii.eqb_spec a ">") as [->|]; [reflexivity|]]; cbn [fst snd append]; rewrite <- IH; reflexivity.
Qed.
Lemma span_stops p s : snd (span p s) = "" \/ exists a r, snd (span p s) = String a r /\ p a = false.
Proof. induction s as [|a s IH]; [left; reflexivity|]. cbn [span]. destruct (p a) eqn:P; [exact IH|right; exists a, s; auto]. Qed.

(* what stands in the bytes for a tag *)
Definition shown (e : event) (bytes : string) (rest : string) : Prop :=
  match e with
  | EvStart _ x _ => start_tag x bytes rest
  | EvEnd _ x => end_tag x bytes rest
  | _ => True
  end.
Definition ends_with (x s : string) : Prop := exists b, s = b ++ x.
Lemma ends_trans x y z : ends_with x y -> ends_with y z -> ends_with x z.
Proof. intros (b & ->) (b' & ->). exists (b' ++ b). rewrite sapp_assoc. reflexivity. Qed.
Lemma ends_tail a s : ends_with s (String a s).
Proof. exists (String a ""). reflexivity. Qed.
Lemma ends_refl s : ends_with s s.
Proof. exists "". reflexivity. Qed.
Lemma ends_none s : ends_with "" s.
Proof. exists s. rewrite sapp_nil. reflexivity. Qed.
Lemma substring_ends s : forall n m, String.length s <= n + m -> ends_with (substring n m s) s.
Proof.
  induction s as [|a s IH]; intros n m L; [destruct n, m; apply ends_refl|]. cbn [String.length] in L. destruct n as [|n].
  - destruct m as [|m]; [lia|]. cbn [substring]. destruct (IH 0 m) as (b & E); [lia|]. exists "". cbn [append].
    assert (X : s = substring 0 m s); [|rewrite <- X; reflexivity]. clear - L. revert m L. induction s as [|c s IH]; intros [|m] L; cbn [substring String.length] in *; try reflexivity; [lia|]. rewrite <- (IH m); [reflexivity|lia].
  - cbn [substring]. eapply ends_trans; [apply IH; lia|apply ends_tail].
Qed.
Lemma until_str_ends e s : forall x r, until_str e s = Some (x, r) -> ends_with r s.
Proof.
  induction s as [|a s IH]; intros x r H; cbn [until_str] in H.
  - destruct (String.prefix e ""); [|discriminate]. apply (f_equal (fun o => match o with Some (_, y) => y | None => "" end)) in H. cbv beta iota in H. rewrite <- H. apply substring_ends. lia.
  - destruct (String.prefix e (String a s)); [apply (f_equal (fun o => match o with Some (_, y) => y | None => "" end)) in H; cbv beta iota in H; rewrite <- H; apply substring_ends; lia|].
    destruct (until_str e s) as [[y q]|] eqn:E; [|discriminate]. cbn [option_map fst snd] in H. injection H as _ <-. eapply ends_trans; [eapply IH; reflexivity|apply ends_tail].
Qed.
Lemma until_ends c s : ends_with (rest_of (snd (until c s))) s.
Proof.
  rewrite (until_parts c s) at 2. destruct (snd (until c s)) as [r|]; cbn [rest_of]; [|apply ends_none]. exists (fst (until c s) ++ String c ""). rewrite sapp_assoc. reflexivity.
Qed.
(* One event: the bytes begin with it, and reading goes on in what comes after it. *)
Lemma read_one n st s e l : read_loop n st s = e :: l ->
  exists n' st' rest after, shown e s rest /\ ends_with rest s /\ ends_with after rest /\ (l = read_loop n' st' after \/ l = []).
Proof.
  intros H. destruct n as [|n]; cbn [read_loop] in H; [discriminate|]. destruct s as [|a r]; [discriminate|].
  destruct (negb (Ascii.eqb a "<")) eqn:NA.
  { pose proof (span_parts (fun a => negb (Ascii.eqb a "<")) (String a r)) as P. destruct (span (fun a => negb (Ascii.eqb a "<")) (String a r)) as [t rest]. injection H as <- <-. cbn [fst snd] in P.
    exists n, st, rest, rest. split; [exact Logic.I|]. split; [exists t; exact P|]. split; [apply ends_refl|left; reflexivity]. }
  apply negb_false_iff, Ascii.eqb_eq in NA. subst a.
  destruct r as [|b r']; [discriminate|].
  assert (ERR : forall x, e = x -> shown x (String "<" (String b r')) "" -> l = [] -> exists n' st' rest after, shown e (String "<" (String b r')) rest /\ ends_with rest (String "<" (String b r')) /\ ends_with after rest /\ (l = read_loop n' st' after \/ l = [])).
  { intros x -> Q ->. exists 0, st, "", "". split; [exact Q|]. split; [apply ends_none|]. split; [apply ends_refl|right; reflexivity]. }
  assert (GO : forall x rest, e = x -> (shown x (String "<" (String b r')) rest) -> ends_with rest r' -> l = read_loop n st rest -> exists n' st' rest after, shown e (String "<" (String b r')) rest /\ ends_with rest (String "<" (String b r')) /\ ends_with after rest /\ (l = read_loop n' st' after \/ l = [])).
  { intros x rest -> Q P ->. exists n, st, rest, rest. split; [exact Q|]. split; [eapply ends_trans; [exact P|]; eapply ends_trans; apply ends_tail|]. split; [apply ends_refl|left; reflexivity]. }
  destruct (Ascii.eqb_spec b "/") as [->|].
  { pose proof (until_parts ">" r') as P. destruct (until ">" r') as [x rest]. cbn [fst snd] in P. destruct st as [|[o b0] st]; [injection H as <- <-; eapply ERR; reflexivity|]. destruct (String.eqb o (trim_end x)); [|injection H as <- <-; eapply ERR; reflexivity].
    injection H as <- <-. destruct (trim_parts x) as (t & ET & T). set (tail := match rest with Some r => String ">" r | None => "" end) in *.
    exists n, st, (t ++ tail), (rest_of rest). split; [|split; [|split; [|left; reflexivity]]].
    - cbn [shown]. exists (trim_end x). split; [apply local_named; reflexivity|]. split; [change ("</" ++ ?z) with (String "<" (String "/" z)); rewrite P at 1; rewrite ET at 1; rewrite sapp_assoc; reflexivity|].
      destruct T as [->|(a & r & -> & SP)]; [|apply space_ends, SP]. cbn [append]. unfold tail. destruct rest as [r|]; [right; exists ">"%char, r; split; [reflexivity|tauto]|left; reflexivity].
    - eapply ends_trans; [|eapply ends_trans; apply ends_tail]. exists (trim_end x). rewrite P at 1. rewrite ET at 1. rewrite sapp_assoc. reflexivity.
    - unfold tail. destruct rest as [r|]; [exists (t ++ ">"); rewrite sapp_assoc; reflexivity|exists (t ++ ""); rewrite sapp_assoc; reflexivity]. }
  destruct (Ascii.eqb b "!").
  { destruct (String.prefix "--" r'); [|destruct (String.prefix "[CDATA[" r'); [|destruct (String.prefix "DOCTYPE" r')]].
    - destruct (until_str "-->" _) as [[x rest]|] eqn:U; [|injection H as <- <-; eapply ERR; reflexivity]. apply until_str_ends in U. injection H as <- <-.
      eapply GO; [reflexivity|exact Logic.I| |reflexivity]. eapply ends_trans; [exact U|apply substring_ends; lia].
    - destruct (until_str "]]>" _) as [[x rest]|] eqn:U; [|injection H as <- <-; eapply ERR; reflexivity]. apply until_str_ends in U. injection H as <- <-.
      eapply GO; [reflexivity|exact Logic.I| |reflexivity]. eapply ends_trans; [exact U|apply substring_ends; lia].
    - injection H as <- <-. eapply GO; [reflexivity|exact Logic.I|apply until_ends|reflexivity].
    - injection H as <- <-. eapply ERR; reflexivity. }
  destruct (Ascii.eqb b "?").
  { pose proof (until_ends ">" r') as P. destruct (until ">" r') as [x rest]. cbn [snd] in P. destruct (ends_in "?" x); injection H as <- <-; [eapply GO; [reflexivity|exact Logic.I|exact P|reflexivity]|eapply ERR; reflexivity]. }
  pose proof (elem_exact (String b r') None) as P. destruct (elem_until None (String b r')) as [x rest]. cbn [fst snd] in P. set (tail := match rest with Some r => String ">" r | None => "" end) in *.
  assert (TA : ends_with (rest_of rest) tail) by (unfold tail; destruct rest as [r|]; [exists ">"|exists ""]; reflexivity).
  assert (TO : ends_with tail (String "<" (String b r'))) by (eapply ends_trans; [|apply ends_tail]; exists x; exact P).
  destruct (ends_in "/" x).
  { destruct (span (fun a => negb (is_space a)) (drop_last x)) as [nm more]. injection H as <- <-. exists n, st, tail, (rest_of rest). split; [exact Logic.I|]. split; [exact TO|]. split; [exact TA|left; reflexivity]. }
  pose proof (span_parts (fun a => negb (is_space a)) x) as SP. pose proof (span_stops (fun a => negb (is_space a)) x) as ST.
  destruct (span (fun a => negb (is_space a)) x) as [nm more]. cbn [fst snd] in SP, ST. injection H as <- <-.
  eexists n, _, (more ++ tail), (rest_of rest). split; [|split; [|split; [|left; reflexivity]]].
  - cbn [shown]. exists nm. split; [apply local_named; reflexivity|]. split; [change ("<" ++ ?z) with (String "<" z); rewrite P at 1; rewrite SP at 1; rewrite sapp_assoc; reflexivity|].
    destruct ST as [->|(a & r & -> & SPC)]; [|apply space_ends; apply negb_false_iff, SPC]. cbn [append]. unfold tail. destruct rest as [r|]; [right; exists ">"%char, r; split; [reflexivity|tauto]|left; reflexivity].
  - eapply ends_trans; [|apply ends_tail]. exists nm. rewrite P at 1. rewrite SP at 1. rewrite sapp_assoc. reflexivity.
  - destruct TA as (mid & E). exists (more ++ mid). rewrite E, sapp_assoc. reflexivity.
Qed.

(* An event further on: reading goes on after it. *)
Lemma read_on l1 : forall n st s e l2, read_loop n st s = (l1 ++ e :: l2)%list ->
  exists n' st' here rest after, ends_with here s /\ shown e here rest /\ ends_with rest here /\ ends_with after rest /\ (l2 = read_loop n' st' after \/ l2 = []).
Proof.
  induction l1 as [|x l1 IH]; intros n st s e l2 H; cbn [app] in H; destruct (read_one _ _ _ _ _ H) as (n' & st' & rest & after & S & R & A & L).
  - exists n', st', s, rest, after. split; [apply ends_refl|]. auto.
  - destruct L as [L|L]; [|destruct l1; discriminate]. symmetry in L. destruct (IH _ _ _ _ _ L) as (n2 & st2 & here & rest2 & after2 & Q). exists n2, st2, here, rest2, after2.
    split; [eapply ends_trans; [apply Q|]; eapply ends_trans; eassumption|apply Q].
Qed.
(* Every file that loads has a FoLiA start tag, after it a metadata end tag, and after that a text or speech start tag. *)
Theorem C76_bytes_partial : forall fuel O p s d, doc_from_bytes fuel O p s = Ok d ->
  exists body before root after1 between meta after2 more start after3, (body = "text" \/ body = "speech") /\
    s = before ++ root /\ start_tag "FoLiA" root after1 /\ after1 = between ++ meta /\ end_tag "metadata" meta after2 /\ after2 = more ++ start /\ start_tag body start after3.
Proof.
  intros * H. destruct (C76_head_partial _ _ _ _ _ H) as (l1 & a1 & l2 & l3 & name & a2 & l4 & E & T). unfold read_text in E.
  destruct (read_on _ _ _ _ _ _ E) as (n1 & st1 & h1 & r1 & f1 & (b1 & E1) & S1 & _ & F1 & L1). destruct L1 as [L1|L1]; [|destruct l2; discriminate]. symmetry in L1.
  destruct (read_on _ _ _ _ _ _ L1) as (n2 & st2 & h2 & r2 & f2 & H2 & S2 & _ & F2 & L2). destruct L2 as [L2|L2]; [|destruct l3; discriminate]. symmetry in L2.
  destruct (read_on _ _ _ _ _ _ L2) as (n3 & st3 & h3 & r3 & f3 & H3 & S3 & _ & _ & _). cbn [shown] in S1, S2, S3.
  destruct (ends_trans _ _ _ H2 F1) as (b2 & E2). destruct (ends_trans _ _ _ H3 F2) as (b3 & E3).
  exists name, b1, h1, r1, b2, h2, r2, b3, h3, r3. auto 10.
Qed.
Print Assumptions C76_bytes_partial.

(* ---------------------------------------------------------------- reading a file that was cut off *)
Lemma until_cut c x y : match snd (until c x) with
  | Some r => until c (x ++ y) = (fst (until c x), Some (r ++ y))
  | None => fst (until c x) = x end.
Proof.
  induction x as [|a x IH]; [reflexivity|]. cbn [until append]. destruct (Ascii.eqb a c); [reflexivity|]. cbn [fst snd]. destruct (snd (until c x)) as [r|]; rewrite IH; reflexivity.
Qed.
Lemma elem_cut x y : forall q, match snd (elem_until q x) with
  | Some r => elem_until q (x ++ y) = (fst (elem_until q x), Some (r ++ y))
  | None => True end.
Proof.
  induction x as [|a x IH]; intros q; [exact Logic.I|]. cbn [elem_until append].
  destruct q as [c|]; [|destruct (Ascii.eqb a ">"); [reflexivity|]]; cbn [fst snd]; match goal with |- context [elem_until ?q x] => specialize (IH q); destruct (snd (elem_until q x)) as [r|]; [rewrite IH; reflexivity|exact Logic.I] end.
Qed.
Lemma span_cut p x y : snd (span p x) <> "" -> span p (x ++ y) = (fst (span p x), snd (span p x) ++ y).
Proof.
  induction x as [|a x IH]; [intros N; contradiction N; reflexivity|]. cbn [span append]. destruct (p a); [|reflexivity]. cbn [fst snd]. intros N. rewrite (IH N). reflexivity.
Qed.
Lemma prefix_cut e x y : String.prefix e x = true -> String.prefix e (x ++ y) = true.
Proof. revert x. induction e as [|a e IH]; intros x H; [destruct x, y; reflexivity|]. destruct x as [|b x]; [discriminate|]. cbn [String.prefix append] in *. destruct (ascii_dec a b); [apply IH, H|discriminate]. Qed.
Lemma prefix_split e s : String.prefix e s = true -> s = e ++ substring (String.length e) (String.length s - String.length e) s.
Proof. intros H. apply prefix_app in H. destruct H as (r & ->). rewrite substring_drop. reflexivity. Qed.
Lemma until_str_eq e s : until_str e s = if String.prefix e s then Some ("", substring (String.length e) (String.length s - String.length e) s)
  else match s with "" => None | String a r => option_map (fun x => (String a (fst x), snd x)) (until_str e r) end.
Proof. destruct s; reflexivity. Qed.
Lemma prefix_back e x y : String.length e <= String.length x -> String.prefix e (x ++ y) = true -> String.prefix e x = true.
Proof. revert x. induction e as [|a e IH]; intros x L H; [destruct x; reflexivity|]. destruct x as [|b x]; cbn [String.length] in L; [lia|]. cbn [String.prefix append] in *. destruct (ascii_dec a b); [apply IH; [lia|exact H]|discriminate]. Qed.
Lemma until_str_length e x : forall p r, until_str e x = Some (p, r) -> String.length e <= String.length x.
Proof.
  induction x as [|a x IH]; intros p r H; rewrite until_str_eq in H.
  - destruct (String.prefix e "") eqn:P; [|discriminate]. apply prefix_split in P. rewrite P at 1. rewrite slen_app. lia.
  - destruct (String.prefix e (String a x)) eqn:P; [apply prefix_split in P; rewrite P at 1; rewrite slen_app; lia|]. destruct (until_str e x) as [[p' r']|] eqn:E; [|discriminate]. specialize (IH _ _ eq_refl). cbn [String.length]. lia.
Qed.
Lemma until_str_cut e x y : forall p r, until_str e x = Some (p, r) -> until_str e (x ++ y) = Some (p, r ++ y).
Proof.
  induction x as [|a x IH]; intros p r H.
  - rewrite until_str_eq in H. destruct (String.prefix e "") eqn:P; [|discriminate]. pose proof (prefix_split _ _ P) as S. destruct e as [|c e]; [|discriminate S].
    rewrite until_str_eq. replace (String.prefix "" ("" ++ y)) with true by (destruct y; reflexivity). cbn [String.length substring] in H. apply (f_equal (fun o => match o with Some z => z | None => ("", "x") end)) in H. cbv beta iota in H. injection H as <- <-.
    cbn [String.length append]. rewrite Nat.sub_0_r, substring_all. reflexivity.
  - pose proof (until_str_length _ _ _ _ H) as LEN. rewrite until_str_eq in H |- *. destruct (String.prefix e (String a x)) eqn:P.
    + rewrite (prefix_cut _ _ y P). pose proof (prefix_split _ _ P) as S. set (t := substring (String.length e) (String.length (String a x) - String.length e) (String a x)) in *.
      assert (p = "" /\ r = t) as (-> & ->) by (split; congruence). rewrite S. rewrite sapp_assoc, substring_drop. reflexivity.
    + destruct (String.prefix e (String a x ++ y)) eqn:P2; [rewrite (prefix_back _ _ _ LEN P2) in P; discriminate|]. cbn [append].
      destruct (until_str e x) as [[p' r']|]; [|discriminate]. rewrite (IH _ _ eq_refl). cbn [option_map fst snd] in *. injection H as <- <-. reflexivity.
Qed.
Lemma substring_cut k x y : k <= String.length x -> substring k (String.length (x ++ y) - k) (x ++ y) = substring k (String.length x - k) x ++ y.
Proof.
  revert k. induction x as [|a x IH]; intros k L; cbn [String.length] in L.
  - assert (k = 0) as -> by lia. cbn [append String.length substring Nat.sub]. rewrite Nat.sub_0_r. apply substring_all.
  - destruct k as [|k]; [rewrite !Nat.sub_0_r, !substring_all; reflexivity|]. cbn [append String.length substring Nat.sub]. apply IH. lia.
Qed.

(* The events of a file that was cut off are those of the whole file, up to the place of the cut, and at most one more for
   what was cut in two. That one is text only if the whole file has text there. *)
Lemma read_cut n : forall m st cut more, String.length cut < n -> String.length (cut ++ more) < m ->
  exists pre junk post, read_loop n st cut = (pre ++ junk)%list /\ read_loop m st (cut ++ more) = (pre ++ post)%list /\
    (junk = [] \/ (exists t, junk = [EvText t]) \/ exists e e' post', junk = [e] /\ post = e' :: post' /\ forall t, e' <> EvText t).
Proof.
  induction n as [|n IH]; intros m st cut more N M; [lia|]. destruct m as [|m]; [lia|].
  destruct cut as [|a r]; [exists [], [], (read_loop (S m) st more); repeat split; auto|].
  change (String a r ++ more) with (String a (r ++ more)) in *. cbn [String.length] in N, M. cbn [read_loop].
  assert (STEP : forall e st' x, String.length x <= String.length r -> exists pre junk post, (e :: read_loop n st' x)%list = (pre ++ junk)%list /\ (e :: read_loop m st' (x ++ more))%list = (pre ++ post)%list /\
    (junk = [] \/ (exists t, junk = [EvText t]) \/ exists e e' post', junk = [e] /\ post = e' :: post' /\ forall t, e' <> EvText t)).
  { intros e st' x L. destruct (IH m st' x more) as (pre & junk & post & A & B & C); [lia|rewrite slen_app in *; lia|]. exists (e :: pre), junk, post. rewrite A, B. auto. }
  assert (LAST : forall e e' l', (forall t, e' <> EvText t) -> exists pre junk post, [e] = (pre ++ junk)%list /\ (e' :: l')%list = (pre ++ post)%list /\
    (junk = [] \/ (exists t, junk = [EvText t]) \/ exists e e' post', junk = [e] /\ post = e' :: post' /\ forall t, e' <> EvText t)).
  { intros e e' l' NT. exists [], [e], (e' :: l'). repeat split. right. right. exists e, e', l'. auto. }
  assert (EMPTY : forall k st', read_loop k st' "" = []) by (intros [|k] st'; reflexivity).
  destruct (negb (Ascii.eqb a "<")) eqn:NA.
  { change (String a (r ++ more)) with (String a r ++ more). destruct (span (fun a => negb (Ascii.eqb a "<")) (String a r)) as [t rest] eqn:SP. destruct (string_dec rest "") as [->|NE].
    - rewrite EMPTY. destruct (span (fun a => negb (Ascii.eqb a "<")) (String a r ++ more)) as [t' rest']. exists [], [EvText (unescape t)], (EvText (unescape t') :: read_loop m st rest'). repeat split. right. left. eauto.
    - pose proof (span_cut (fun a => negb (Ascii.eqb a "<")) (String a r) more) as C. rewrite SP in C. cbn [fst snd] in C. rewrite (C NE). apply STEP.
      cbn [span] in SP. rewrite NA in SP. injection SP as _ <-. apply span_len. }
  destruct r as [|b r']; [cbn [append]; exists [], []; eexists; split; [reflexivity|]; split; [reflexivity|]; left; reflexivity|].
  cbn [append String.length] in *.
  destruct (Ascii.eqb b "/").
  { pose proof (until_cut ">" r' more) as C. pose proof (until_len ">" r') as L. destruct (until ">" r') as [x [rest|]]; cbn [fst snd rest_of] in C, L.
    - rewrite C. destruct st as [|[o b0] st]; [apply LAST; discriminate|]. destruct (String.eqb o (trim_end x)); [|apply LAST; discriminate]. cbn [rest_of]. apply STEP. lia.
    - destruct (until ">" (r' ++ more)) as [x2 rest2].
      assert (Y : exists e', (forall t, e' <> EvText t) /\ exists l', match st with [] => [EvError] | (open, _) :: st' => if String.eqb open (trim_end x2) then EvEnd (namespace (env_of st) (trim_end x2)) (local_name (trim_end x2)) :: read_loop m st' (rest_of rest2) else [EvError] end = e' :: l').
      { destruct st as [|[o b0] st]; [|destruct (String.eqb o (trim_end x2))]; eexists; (split; [|eexists; reflexivity]); discriminate. }
      destruct Y as (e' & NT & l' & ->). destruct st as [|[o b0] st]; [|destruct (String.eqb o (trim_end x)); cbn [rest_of]; rewrite ?EMPTY]; apply LAST, NT. }
  destruct (Ascii.eqb b "!").
  { assert (Y : exists e', (forall t, e' <> EvText t) /\ exists l', (if String.prefix "--" (r' ++ more)
               then match until_str "-->" (substring 2 (String.length (r' ++ more) - 2) (r' ++ more)) with Some (x, rest) => EvComment (Some x) :: read_loop m st rest | None => [EvError] end
               else if String.prefix "[CDATA[" (r' ++ more)
               then match until_str "]]>" (substring 7 (String.length (r' ++ more) - 7) (r' ++ more)) with Some (x, rest) => EvCData (Some x) :: read_loop m st rest | None => [EvError] end
               else if String.prefix "DOCTYPE" (r' ++ more) then EvOther :: read_loop m st (rest_of (snd (until ">" (r' ++ more)))) else [EvError]) = e' :: l').
    { destruct (String.prefix "--" (r' ++ more)); [destruct (until_str _ _) as [[? ?]|]|destruct (String.prefix "[CDATA[" (r' ++ more)); [destruct (until_str _ _) as [[? ?]|]|destruct (String.prefix "DOCTYPE" (r' ++ more))]]; eexists; (split; [|eexists; reflexivity]); discriminate. }
    destruct Y as (e' & NT & l' & Y).
    assert (LEN : forall e, String.prefix e r' = true -> String.length e <= String.length r') by (intros e P; rewrite (prefix_split _ _ P), slen_app; lia).
    destruct (String.prefix "--" r') eqn:P1; [|destruct (String.prefix "[CDATA[" r') eqn:P2; [|destruct (String.prefix "DOCTYPE" r') eqn:P3]].
    - destruct (until_str "-->" (substring 2 (String.length r' - 2) r')) as [[x rest]|] eqn:U; [|rewrite Y; apply LAST, NT].
      rewrite (prefix_cut _ _ more P1). rewrite substring_cut by apply (LEN _ P1). rewrite (until_str_cut _ _ _ _ _ U). apply STEP. apply until_str_len in U. pose proof (substring_len r' 2 (String.length r' - 2)). lia.
    - destruct (until_str "]]>" (substring 7 (String.length r' - 7) r')) as [[x rest]|] eqn:U; [|rewrite Y; apply LAST, NT].
      assert (Q : String.prefix "--" (r' ++ more) = false) by (destruct r' as [|c r']; [discriminate P2|]; cbn [String.prefix append] in *; destruct (ascii_dec "[" c) as [<-|]; [reflexivity|discriminate]).
      rewrite Q, (prefix_cut _ _ more P2). rewrite substring_cut by apply (LEN _ P2). rewrite (until_str_cut _ _ _ _ _ U). apply STEP. apply until_str_len in U. pose proof (substring_len r' 7 (String.length r' - 7)). lia.
    - assert (Q : String.prefix "--" (r' ++ more) = false /\ String.prefix "[CDATA[" (r' ++ more) = false) by (destruct r' as [|c r']; [discriminate P3|]; cbn [String.prefix append] in *; destruct (ascii_dec "D" c) as [<-|]; [split; reflexivity|discriminate]).
      destruct Q as (Q1 & Q2). rewrite Q1, Q2, (prefix_cut _ _ more P3). pose proof (until_cut ">" r' more) as C. pose proof (until_len ">" r') as L. destruct (until ">" r') as [x [rest|]]; cbn [fst snd rest_of] in C, L |- *.
      + rewrite C. cbn [snd rest_of]. apply STEP. lia.
      + rewrite EMPTY. apply LAST. discriminate.
    - rewrite Y. apply LAST, NT. }
  destruct (Ascii.eqb b "?").
  { pose proof (until_cut ">" r' more) as C. pose proof (until_len ">" r') as L. destruct (until ">" r') as [x [rest|]]; cbn [fst snd rest_of] in C, L.
    - rewrite C. destruct (ends_in "?" x); [cbn [rest_of]; apply STEP; lia|apply LAST; discriminate].
    - destruct (until ">" (r' ++ more)) as [x2 rest2]. cbn [rest_of]. destruct (ends_in "?" x), (ends_in "?" x2); rewrite ?EMPTY; apply LAST; discriminate. }
  pose proof (elem_cut (String b r') more None) as C. pose proof (elem_len (String b r') None) as L. change (String b (r' ++ more)) with (String b r' ++ more).
  destruct (elem_until None (String b r')) as [x [rest|]]; cbn [fst snd rest_of String.length] in C, L.
  - rewrite C. destruct (span (fun a => negb (is_space a)) (if ends_in "/" x then drop_last x else x)) as [nm mr]. destruct (ends_in "/" x); cbn [rest_of]; apply STEP; cbn [String.length]; lia.
  - destruct (elem_until None (String b r' ++ more)) as [x2 rest2]. cbn [rest_of].
    destruct (span (fun a => negb (is_space a)) (if ends_in "/" x then drop_last x else x)) as [nm mr]. destruct (span (fun a => negb (is_space a)) (if ends_in "/" x2 then drop_last x2 else x2)) as [nm2 mr2].
    destruct (ends_in "/" x), (ends_in "/" x2); rewrite EMPTY; apply LAST; discriminate.
Qed.

(* ---------------------------------------------------------------- the head of a saved file *)
Definition stays_open (e : wevent) : bool := match e with WEnd n => negb (String.eqb n "metadata") | _ => true end.
Lemma annotators_open d ps : forall l, w_annotators d ps = Ok l -> forallb stays_open l = true.
Proof.
  induction ps as [|pk ps IH]; intros l H; cbn [w_annotators] in H; [injection H as <-; reflexivity|]. destruct (get_processor d pk); [|discriminate].
  apply rbind_ok in H. destruct H as (x & X & H). injection H as <-. cbn [forallb]. rewrite (IH _ X). reflexivity.
Qed.
Lemma declarations_open d ds : forall l, w_declaration_list d ds = Ok l -> forallb stays_open l = true.
Proof.
  induction ds as [|[dec|] ds IH]; intros l H; cbn [w_declaration_list] in H; [injection H as <-; reflexivity| |apply IH, H].
  apply rbind_ok in H. destruct H as (x & X & H). apply rbind_ok in H. destruct H as (y & Y & H). injection H as <-. rewrite forallb_app, (IH _ Y), andb_true_r.
  unfold w_declaration in X. destruct (d_processors dec) as [|q ps]; [injection X as <-; reflexivity|]. apply rbind_ok in X. destruct X as (z & Z & X). injection X as <-. cbn [forallb]. rewrite forallb_app, (annotators_open _ _ _ Z).
  destruct (d_type dec); reflexivity.
Qed.
Lemma each_open f : (forall k l, f k = Ok l -> forallb stays_open l = true) -> forall ks l, w_each f ks = Ok l -> forallb stays_open l = true.
Proof.
  intros F. induction ks as [|k ks IH]; intros l H; cbn [w_each] in H; [injection H as <-; reflexivity|].
  apply rbind_ok in H. destruct H as (x & X & H). apply rbind_ok in H. destruct H as (y & Y & H). injection H as <-. rewrite forallb_app, (F _ _ X). apply IH, Y.
Qed.
Lemma processor_open fuel d : forall k l, w_processor fuel d k = Ok l -> forallb stays_open l = true.
Proof.
  induction fuel as [|f IH]; intros k l H; cbn [w_processor] in H; [discriminate|]. destruct (get_processor d k) as [p|]; [|injection H as <-; reflexivity].
  destruct (pr_processors p) as [|s ss]; [injection H as <-; reflexivity|]. apply rbind_ok in H. destruct H as (x & X & H). injection H as <-. cbn [forallb]. rewrite forallb_app, (each_open _ IH _ _ X). reflexivity.
Qed.
Lemma meta_open l : forallb stays_open (flat_map w_meta l) = true.
Proof. induction l as [|p l IH]; [reflexivity|]. cbn [flat_map w_meta]. rewrite forallb_app, IH. reflexivity. Qed.
Lemma metadata_open fuel d m : w_metadata fuel d = Ok m -> exists l, m = (l ++ [WEnd "metadata"; wnl])%list /\ forallb stays_open l = true.
Proof.
  unfold w_metadata, w_declarations, w_provenance. intros H. apply rbind_ok in H. destruct H as (ds & D & H). apply rbind_ok in D. destruct D as (x & X & D). injection D as <-.
  apply rbind_ok in H. destruct H as (ps & P & H). apply rbind_ok in P. destruct P as (y & Y & P). injection P as <-. injection H as <-.
  apply declarations_open in X. apply (each_open _ (processor_open fuel d)) in Y.
  assert (SM : forallb stays_open (flat_map (fun p : string * metadata => flat_map w_meta (m_data (snd p))) (doc_submetadata d)) = true).
  { induction (doc_submetadata d) as [|p l IH]; [reflexivity|]. cbn [flat_map]. rewrite forallb_app, meta_open. exact IH. }
  eexists. split; [rewrite !app_comm_cons, !app_assoc; reflexivity|]. repeat (cbn [forallb stays_open wnl app]; rewrite ?forallb_app). rewrite X, Y, meta_open, SM. reflexivity.
Qed.
Lemma indent_open i l : forall dep b, forallb stays_open (w_indent i dep b l) = forallb stays_open l.
Proof. induction l as [|e l IH]; intros dep b; [reflexivity|]. destruct e; cbn [w_indent forallb]; try (destruct (b && negb (Nat.eqb i 0)); cbn [app forallb stays_open andb]; rewrite IH; reflexivity). Qed.
Lemma indent_app i l2 l1 : forall dep b, exists dep' b', w_indent i dep b (l1 ++ l2) = (w_indent i dep b l1 ++ w_indent i dep' b' l2)%list.
Proof.
  induction l1 as [|e l1 IH]; intros dep b; [exists dep, b; reflexivity|].
  destruct e as [n a|n a|n|s|s]; cbn [w_indent app]; [destruct (IH (S dep) true) as (x & y & E)|destruct (IH dep true) as (x & y & E)|destruct (IH (pred dep) true) as (x & y & E)|destruct (IH dep false) as (x & y & E)|destruct (IH dep true) as (x & y & E)];
    exists x, y; rewrite E, ?app_comm_cons, ?app_assoc, <- ?app_comm_cons; reflexivity.
Qed.
Lemma indent_text i l2 s l1 dep b : exists dep', w_indent i dep b (l1 ++ WText s :: l2) = (w_indent i dep b (l1 ++ [WText s]) ++ w_indent i dep' false l2)%list.
Proof.
  revert dep b. induction l1 as [|e l1 IH]; intros dep b; [exists dep; reflexivity|].
  destruct e as [n a|n a|n|t|t]; cbn [w_indent app]; [destruct (IH (S dep) true) as (x & E)|destruct (IH dep true) as (x & E)|destruct (IH (pred dep) true) as (x & E)|destruct (IH dep false) as (x & E)|destruct (IH dep true) as (x & E)];
    exists x; rewrite E, ?app_comm_cons, ?app_assoc, <- ?app_comm_cons; reflexivity.
Qed.
Lemma write_app l1 l2 : write_events (l1 ++ l2) = write_events l1 ++ write_events l2.
Proof. induction l1 as [|e l1 IH]; [reflexivity|]. cbn [app write_events]. rewrite IH, sapp_assoc. reflexivity. Qed.
Lemma w_read_end n r l : forall acc, forallb stays_open l = true -> exists x, w_read acc (l ++ WEnd n :: r) = (x ++ EvEnd NsFolia n :: w_read "" r)%list /\ ~ In (EvEnd NsFolia "metadata") x.
Proof.
  assert (FL : forall acc e, In e (flush acc) -> e <> EvEnd NsFolia "metadata") by (intros acc e; unfold flush; destruct (str_is_empty acc); [intros []|intros [<-|[]]; discriminate]).
  induction l as [|e l IH]; intros acc G; cbn [app].
  - cbn [w_read]. exists (flush acc). split; [reflexivity|]. intros I'. apply (FL _ _ I'). reflexivity.
  - cbn [forallb] in G. apply andb_prop in G. destruct G as (G & GL).
    destruct e as [t a|t a|t|t|t]; cbn [w_read].
    4: exact (IH _ GL).
    all: destruct (IH "" GL) as (x & E & NI); rewrite E, app_comm_cons, app_assoc; eexists; (split; [reflexivity|]); intros I'; apply in_app_or in I'; destruct I' as [I'|[I'|I']]; [exact (FL _ _ I' eq_refl)| |exact (NI I')]; try discriminate I'.
    cbn [stays_open] in G. injection I' as ->. discriminate G.
Qed.
Lemma split_once {A} (a : A) x : forall p r q, (x ++ a :: r = p ++ a :: q)%list -> ~ In a x -> ~ In a r -> x = p /\ r = q.
Proof.
  induction x as [|y x IH]; intros p r q E N1 N2; destruct p as [|z p]; cbn [app] in E.
  - injection E as E. auto.
  - injection E as -> E. contradiction N2. rewrite E. apply in_or_app. right. left. reflexivity.
  - injection E as -> E. contradiction N1. left. reflexivity.
  - injection E as -> E. destruct (IH p r q E) as (-> & ->); auto. intros I'. apply N1. right. exact I'.
Qed.
Lemma head_cut hb x t cut rest fuel O p d : read_text hb = (x ++ [EvEnd NsFolia "metadata"; EvText t])%list -> ~ In (EvEnd NsFolia "metadata") x -> hb = cut ++ rest -> doc_from_bytes fuel O p cut = Ok d -> False.
Proof.
  intros R NX -> H. destruct (C76_head_partial _ _ _ _ _ H) as (l1 & a1 & l2 & l3 & name & a2 & l4 & E & _). unfold read_text in E, R.
  destruct (read_cut (S (String.length cut)) (S (String.length (cut ++ rest))) [] cut rest) as (pre & junk & post & A & B & C); [lia|lia|]. rewrite A in E. rewrite B in R.
  set (P := (l1 ++ EvStart NsFolia "FoLiA" a1 :: l2)%list). assert (E1 : (pre ++ junk)%list = (P ++ EvEnd NsFolia "metadata" :: l3 ++ EvStart NsFolia name a2 :: l4)%list) by (unfold P; rewrite E, <- app_assoc; reflexivity).
  assert (K : exists q, pre = (P ++ EvEnd NsFolia "metadata" :: q)%list /\ (l3 ++ EvStart NsFolia name a2 :: l4)%list = (q ++ junk)%list).
  { assert (J : junk = [] \/ exists e, junk = [e]) by (destruct C as [->|[(t' & ->)|(e & e' & po & -> & _)]]; eauto). destruct J as [->|(e & ->)].
    - rewrite app_nil_r in E1. eexists. split; [exact E1|]. rewrite app_nil_r. reflexivity.
    - assert (NE : (l3 ++ EvStart NsFolia name a2 :: l4)%list <> []) by (destruct l3; discriminate). destruct (exists_last NE) as (q & z & EQ). exists q.
      rewrite EQ in E1 |- *. rewrite app_comm_cons, app_assoc in E1. apply app_inj_tail in E1. destruct E1 as (-> & ->). auto. }
  destruct K as (q & -> & EQ). rewrite <- app_assoc in R. cbn [app] in R. symmetry in R. destruct (split_once _ _ _ _ _ R) as (_ & RQ); [exact NX|intros [I'|[]]; discriminate I'|].
  assert (I' : In (EvStart NsFolia name a2) (q ++ junk)) by (rewrite <- EQ; apply in_or_app; right; left; reflexivity). apply in_app_or in I'.
  destruct q as [|q0 q]; cbn [app] in RQ.
  - destruct I' as [[]|I']. destruct C as [->|[(t' & ->)|(e & e' & po & -> & -> & NT)]]; [destruct I'|destruct I' as [I'|[]]; discriminate I'|]. injection RQ as <- _. exact (NT _ eq_refl).
  - injection RQ as <- RQ. destruct q as [|]; [|discriminate RQ]. cbn [app] in RQ. subst post. destruct I' as [[I'|[]]|I']; [discriminate I'|]. destruct C as [->|[(t' & ->)|(e & e' & po & -> & PE & NT)]]; [destruct I'|destruct I' as [I'|[]]; discriminate I'|discriminate PE].
Qed.
(* A saved file, cut off anywhere before the tag of the body, is refused. The file is its head, which ends with the end tag of the metadata, and what is written for the body. *)
Theorem C76_saved_head_partial : forall fuel O d root indent s, doc_bytes fuel O d root indent = Ok s -> exists head body depth,
  element_xml fuel O d root = Ok body /\ s = head ++ write_events (w_indent indent depth false (body ++ [wnl; WEnd "FoLiA"])) /\ ends_with ("</metadata>" ++ nl) head /\
  forall cut rest, head = cut ++ rest -> forall fuel' O' p d', doc_from_bytes fuel' O' p cut <> Ok d'.
Proof.
  intros * H. unfold doc_bytes in H. apply rbind_ok in H. destruct H as (w & W & H). assert (s = write_text indent w) as -> by congruence. clear H.
  destruct (doc_parts _ _ _ _ _ W) as (all & N & G & EW). unfold doc_xml in W. apply rbind_ok in W. destruct W as (m & M & W). apply rbind_ok in W. destruct W as (b & B & W).
  set (A := [("xmlns", NSFOLIA); ("xmlns:xlink", NSXLINK); ("xml:id", doc_id d); ("version", FOLIAVERSION); ("generator", GENERATOR)]) in *.
  assert (w = WStart "FoLiA" A :: wnl :: m ++ b ++ [wnl; WEnd "FoLiA"])%list as -> by congruence. clear W.
  destruct (metadata_open _ _ _ M) as (l & EM & OL). pose proof (metadata_good _ _ _ M) as GM. subst m.
  set (H0 := (WStart "FoLiA" A :: wnl :: l ++ [WEnd "metadata"])%list).
  assert (EH : (WStart "FoLiA" A :: wnl :: (l ++ [WEnd "metadata"; wnl]) ++ b ++ [wnl; WEnd "FoLiA"])%list = (H0 ++ WText nl :: b ++ [wnl; WEnd "FoLiA"])%list) by (unfold H0; cbn [app]; rewrite <- !app_assoc; reflexivity).
  destruct (indent_text indent (b ++ [wnl; WEnd "FoLiA"]) nl H0 0 false) as (dep & EI). exists (write_text indent (H0 ++ [WText nl])), b, dep.
  split; [exact B|]. split; [unfold write_text; rewrite EH, EI, write_app; reflexivity|].
  assert (EL : (H0 ++ [WText nl])%list = ((WStart "FoLiA" A :: wnl :: l) ++ WEnd "metadata" :: [WText nl])%list) by (unfold H0; cbn [app]; rewrite <- app_assoc; reflexivity).
  destruct (indent_app indent (WEnd "metadata" :: [WText nl]) (WStart "FoLiA" A :: wnl :: l) 0 false) as (dep2 & b2 & EI2).
  set (pre := w_indent indent 0 false (WStart "FoLiA" A :: wnl :: l)) in *.
  assert (SHAPE : exists more, w_indent indent 0 false (H0 ++ [WText nl]) = ((pre ++ more) ++ WEnd "metadata" :: [WText nl])%list /\ forallb stays_open (pre ++ more) = true).
  { exists (if b2 && negb (Nat.eqb indent 0) then [WText (nl ++ spaces (indent * pred dep2))] else []). rewrite EL, EI2. cbn [w_indent]. split; [rewrite <- app_assoc; reflexivity|].
    rewrite forallb_app. unfold pre. rewrite indent_open. cbn [forallb stays_open wnl]. rewrite OL. destruct (b2 && negb (Nat.eqb indent 0)); reflexivity. }
  destruct SHAPE as (more & SH & SO).
  split.
  - unfold write_text. rewrite SH, write_app. exists (write_events (pre ++ more)). reflexivity.
  - intros cut rest EC fuel' O' p d' L. destruct (w_read_end "metadata" [WText nl] (pre ++ more) "" SO) as (x & EX & NX).
    refine (head_cut _ x (Some nl) cut rest fuel' O' p d' _ NX EC L). change [EvEnd NsFolia "metadata"; EvText (Some nl)] with (EvEnd NsFolia "metadata" :: w_read "" [WText nl])%list. rewrite <- EX, <- SH.
    change (w_read "" (w_indent indent 0 false (H0 ++ [WText nl]))) with (reread indent (H0 ++ [WText nl])). rewrite EL.
    change ((WStart "FoLiA" A :: wnl :: l) ++ WEnd "metadata" :: [WText nl])%list with (WStart "FoLiA" A :: wnl :: l ++ [WEnd "metadata"; wnl])%list.
    apply start_read_text; [reflexivity|reflexivity| |cbn [forallb good_event]; rewrite GM; reflexivity].
    cbn [within]. pose proof (w_metadata_nested _ _ _ M) as NM.
    rewrite <- (app_nil_r (l ++ [WEnd "metadata"; wnl])), (nested_within _ NM) by discriminate. reflexivity.
Qed.
Print Assumptions C76_saved_head_partial.

(* The example document: its file has a head, and loads as a whole. *)
Example C76_saved_nonvacuous : exists s head body depth d', doc_bytes fuel1 rt_oracle ex_doc 0 2 = Ok s /\ element_xml fuel1 rt_oracle ex_doc 0 = Ok body /\
  s = head ++ write_events (w_indent 2 depth false (body ++ [wnl; WEnd "FoLiA"])) /\ head <> "" /\ (forall cut rest, head = cut ++ rest -> forall d', doc_from_bytes fuel1 rt_oracle no_props cut <> Ok d') /\
  doc_from_bytes fuel1 rt_oracle no_props s = Ok d' /\ get_element_key_by_id d' "w.3" <> None.
Proof.
  destruct C76_nonvacuous as (s & cut & rest & d' & S & _ & _ & _ & L & G). destruct (C76_saved_head_partial _ _ _ _ _ _ S) as (head & body & depth & B & E & (h & HE) & K).
  exists s, head, body, depth, d'. split; [exact S|]. split; [exact B|]. split; [exact E|]. split; [rewrite HE; destruct h; discriminate|]. split; [|auto]. intros c r EC d1. apply (K c r EC).
Qed.
