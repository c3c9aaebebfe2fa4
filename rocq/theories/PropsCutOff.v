(* C57 on files that were cut off. *)
From Coq Require Import String Ascii List Bool Arith NArith Lia.
From Verif Require Import Base BaseFacts Types TypesFacts SpecTable Attrib AttribFacts Element Store StoreFacts Metadata Document Select DocOps Xml Parser Serialiser History Spec
  FrameFacts InvFacts DocFacts Examples StoreThms InternFacts EncodeFacts PropsEncode LinkFacts TreeFacts ForestFacts SelSpec SelectFacts PropsLinks PropsQuery SerSpec PropsSer ParseSpec ParseFacts PropsParse PropsProv
  NoPanic Returns RoundFacts RoundProv RoundSpec RoundTree PropsRound PropsTree WellSpec LoadOk PropsWell SaveSpec SaveOk PropsSave XmlText XmlTextFacts XmlSpec PropsBytes XmlWell PropsWellFormed PropsNamespace PropsCut LoadMono PropsLoad.
Import ListNotations.
Open Scope string_scope.

(* ---------------------------------------------------------------- what "cut off outside a tag" means *)
(* the inside of a tag as far as its end: quotes are closed, and ">" is only in quotes *)
Inductive quoted : string -> Prop :=
  | quoted_end : quoted ""
  | quoted_char a r : a <> ">"%char -> a <> dq -> a <> sq -> quoted r -> quoted (String a r)
  | quoted_value q v r : q = dq \/ q = sq -> (forall x y, v <> x ++ String q y) -> quoted r -> quoted (String q (v ++ String q r)).
Definition finished (t : string) : Prop := exists x rest, t = x ++ String ">" rest /\ quoted x.
(* every "<" begins a tag that is finished, or an end tag, a comment or the like *)
Definition tags_closed (s : string) : Prop := forall before t, s = before ++ String "<" t -> finished t \/ exists b t', t = String b t' /\ (b = "/"%char \/ b = "!"%char \/ b = "?"%char).

Lemma in_quotes q v r : (forall x y, v <> x ++ String q y) -> snd (elem_until (Some q) (v ++ String q r)) = snd (elem_until None r).
Proof.
  induction v as [|a v IH]; intros H; cbn [append elem_until]; [rewrite Ascii.eqb_refl; reflexivity|]. destruct (Ascii.eqb_spec a q) as [->|N]; [contradiction (H "" v eq_refl)|]. cbn [snd]. apply IH. intros x y ->. exact (H (String a x) y eq_refl).
Qed.
Lemma finished_elem t : finished t -> snd (elem_until None t) <> None.
Proof.
  intros (x & rest & -> & Q). induction Q as [|a r N1 N2 N3 Q IH|q v r D NV Q IH].
  - discriminate.
  - cbn [append elem_until]. destruct (Ascii.eqb_spec a ">") as [|_]; [contradiction|]. destruct (Ascii.eqb_spec a dq) as [|_]; [contradiction|]. destruct (Ascii.eqb_spec a sq) as [|_]; [contradiction|]. exact IH.
  - cbn [append elem_until]. assert (E : Ascii.eqb q ">" = false /\ Ascii.eqb q dq || Ascii.eqb q sq = true) by (destruct D as [->| ->]; split; reflexivity). destruct E as (-> & ->). cbn [snd]. rewrite sapp_assoc. cbn [append]. rewrite in_quotes by exact NV. exact IH.
Qed.
Lemma closed_end x s : ends_with x s -> tags_closed s -> tags_closed x.
Proof. intros (y & ->) H before t ->. apply (H (y ++ before)). rewrite sapp_assoc. reflexivity. Qed.
Definition is_tag (e : event) : bool := match e with EvStart _ _ _ | EvEmpty _ _ _ => true | _ => false end.
(* What is read of a file that is cut off outside a tag is what is read of the whole file up to there, and perhaps one more event that is not a start tag. *)
Lemma read_cut_closed n : forall m st cut more, String.length cut < n -> String.length (cut ++ more) < m -> tags_closed cut ->
  exists pre junk post, read_loop n st cut = (pre ++ junk)%list /\ read_loop m st (cut ++ more) = (pre ++ post)%list /\ Forall (fun e => is_tag e = false) junk.
Proof.
  induction n as [|n IH]; intros m st cut more N M TC; [lia|]. destruct m as [|m]; [lia|].
  destruct cut as [|a r]; [exists [], [], (read_loop (S m) st more); repeat split; auto|].
  change (String a r ++ more) with (String a (r ++ more)) in *. cbn [String.length] in N, M. cbn [read_loop].
  assert (STEP : forall e st' x, ends_with x r -> exists pre junk post, (e :: read_loop n st' x)%list = (pre ++ junk)%list /\ (e :: read_loop m st' (x ++ more))%list = (pre ++ post)%list /\ Forall (fun e => is_tag e = false) junk).
  { intros e st' x L. assert (LN : String.length x <= String.length r) by (destruct L as (y & ->); rewrite slen_app; lia). destruct (IH m st' x more) as (pre & junk & post & A & B & C); [lia|rewrite slen_app in *; lia|eapply closed_end; [|exact TC]; eapply ends_trans; [exact L|apply ends_tail]|]. exists (e :: pre), junk, post. rewrite A, B. auto. }
  assert (LAST : forall e l', is_tag e = false -> exists pre junk post, [e] = (pre ++ junk)%list /\ l' = (pre ++ post)%list /\ Forall (fun e => is_tag e = false) junk).
  { intros e l' NT. exists [], [e], l'. repeat split. constructor; [exact NT|constructor]. }
  assert (EMPTY : forall k st', read_loop k st' "" = []) by (intros [|k] st'; reflexivity).
  destruct (negb (Ascii.eqb a "<")) eqn:NA.
  { change (String a (r ++ more)) with (String a r ++ more). destruct (span (fun a => negb (Ascii.eqb a "<")) (String a r)) as [t rest] eqn:SP. destruct (string_dec rest "") as [->|NE].
    - rewrite EMPTY. apply LAST. reflexivity.
    - pose proof (span_cut (fun a => negb (Ascii.eqb a "<")) (String a r) more) as C. rewrite SP in C. cbn [fst snd] in C. rewrite (C NE). apply STEP.
      cbn [span] in SP. rewrite NA in SP. injection SP as _ <-. pose proof (span_parts (fun a => negb (Ascii.eqb a "<")) r) as P. eexists. exact P. }
  apply negb_false_iff, Ascii.eqb_eq in NA. subst a.
  destruct r as [|b r']; [cbn [append]; exists [], []; eexists; split; [reflexivity|]; split; [reflexivity|]; constructor|].
  cbn [append String.length] in *.
  assert (IN : forall x, ends_with x r' -> ends_with x (String b r')) by (intros x L; eapply ends_trans; [exact L|apply ends_tail]).
  destruct (Ascii.eqb b "/") eqn:B1.
  { pose proof (until_cut ">" r' more) as C. pose proof (until_ends ">" r') as L. destruct (until ">" r') as [x [rest|]]; cbn [fst snd rest_of] in C, L.
    - rewrite C. destruct st as [|[o b0] st]; [apply LAST; reflexivity|]. destruct (String.eqb o (trim_end x)); [|apply LAST; reflexivity]. cbn [rest_of]. apply STEP, IN, L.
    - destruct st as [|[o b0] st]; [|destruct (String.eqb o (trim_end x)); cbn [rest_of]; rewrite ?EMPTY]; apply LAST; reflexivity. }
  destruct (Ascii.eqb b "!") eqn:B2.
  { assert (LEN : forall e, String.prefix e r' = true -> String.length e <= String.length r') by (intros e P; rewrite (prefix_split _ _ P), slen_app; lia).
    destruct (String.prefix "--" r') eqn:P1; [|destruct (String.prefix "[CDATA[" r') eqn:P2; [|destruct (String.prefix "DOCTYPE" r') eqn:P3]].
    - destruct (until_str "-->" (substring 2 (String.length r' - 2) r')) as [[x rest]|] eqn:U; [|apply LAST; reflexivity].
      rewrite (prefix_cut _ _ more P1). rewrite substring_cut by apply (LEN _ P1). rewrite (until_str_cut _ _ _ _ _ U). apply STEP, IN. apply until_str_ends in U. eapply ends_trans; [exact U|apply substring_ends; lia].
    - destruct (until_str "]]>" (substring 7 (String.length r' - 7) r')) as [[x rest]|] eqn:U; [|apply LAST; reflexivity].
      assert (Q : String.prefix "--" (r' ++ more) = false) by (destruct r' as [|c r']; [discriminate P2|]; cbn [String.prefix append] in *; destruct (ascii_dec "[" c) as [<-|]; [reflexivity|discriminate]).
      rewrite Q, (prefix_cut _ _ more P2). rewrite substring_cut by apply (LEN _ P2). rewrite (until_str_cut _ _ _ _ _ U). apply STEP, IN. apply until_str_ends in U. eapply ends_trans; [exact U|apply substring_ends; lia].
    - assert (Q : String.prefix "--" (r' ++ more) = false /\ String.prefix "[CDATA[" (r' ++ more) = false) by (destruct r' as [|c r']; [discriminate P3|]; cbn [String.prefix append] in *; destruct (ascii_dec "D" c) as [<-|]; [split; reflexivity|discriminate]).
      destruct Q as (Q1 & Q2). rewrite Q1, Q2, (prefix_cut _ _ more P3). pose proof (until_cut ">" r' more) as C. pose proof (until_ends ">" r') as L. destruct (until ">" r') as [x [rest|]]; cbn [fst snd rest_of] in C, L |- *.
      + rewrite C. cbn [snd rest_of]. apply STEP, IN, L.
      + rewrite EMPTY. apply LAST. reflexivity.
    - apply LAST. reflexivity. }
  destruct (Ascii.eqb b "?") eqn:B3.
  { pose proof (until_cut ">" r' more) as C. pose proof (until_ends ">" r') as L. destruct (until ">" r') as [x [rest|]]; cbn [fst snd rest_of] in C, L.
    - rewrite C. destruct (ends_in "?" x); [cbn [rest_of]; apply STEP, IN, L|apply LAST; reflexivity].
    - cbn [rest_of]. destruct (ends_in "?" x); rewrite ?EMPTY; apply LAST; reflexivity. }
  pose proof (elem_cut (String b r') more None) as C. pose proof (elem_exact (String b r') None) as L. change (String b (r' ++ more)) with (String b r' ++ more).
  assert (FIN : snd (elem_until None (String b r')) <> None).
  { destruct (TC "" (String b r') eq_refl) as [F|(b' & t' & E & BB)]; [apply finished_elem, F|]. injection E as <- <-. destruct BB as [->|[->| ->]]; discriminate. }
  destruct (elem_until None (String b r')) as [x [rest|]]; cbn [fst snd rest_of String.length] in C, L, FIN; [|contradiction FIN; reflexivity].
  rewrite C. destruct (span (fun a => negb (is_space a)) (if ends_in "/" x then drop_last x else x)) as [nm mr].
  assert (E : ends_with rest (String b r')) by (exists (x ++ ">"); rewrite L, sapp_assoc; reflexivity). destruct (ends_in "/" x); cbn [rest_of]; apply STEP, E.
Qed.

(* ---------------------------------------------------------------- what is read of it is no worse than the whole file *)
Lemma no_tag_in junk : Forall (fun e => is_tag e = false) junk -> forall ns name a, ~ In (EvStart ns name a) junk /\ ~ In (EvEmpty ns name a) junk.
Proof. rewrite Forall_forall. intros H ns name a. split; intros I'; discriminate (H _ I'). Qed.
Lemma placed_junk junk : Forall (fun e => is_tag e = false) junk -> forall st, placed st junk.
Proof.
  induction 1 as [|e l E H IH]; intros st; [exact Logic.I|]. destruct e as [ns ? ?|ns ? ?|ns ?| | | | |]; try discriminate E; cbn [placed]; try apply IH. destruct ns; try apply IH. destruct st as [|? [|? ?]]; try exact Logic.I. apply IH.
Qed.
Lemma placed_cut junk post : Forall (fun e => is_tag e = false) junk -> forall l st, placed st (l ++ post) -> placed st (l ++ junk).
Proof.
  intros J. induction l as [|e l IH]; intros st H; [apply placed_junk, J|]. destruct e as [ns ? ?|ns ? ?|ns ?| | | | |]; cbn [app placed] in *; try (apply IH, H); destruct ns; try (apply IH, H).
  - intros t T. destruct (H t T) as (A & B). split; [exact A|apply IH, B].
  - intros t T. destruct (H t T) as (A & B). split; [exact A|apply IH, B].
  - destruct st as [|? [|? ?]]; try exact Logic.I. apply IH, H.
Qed.
Lemma ids_app a b : xml_ids (a ++ b) = (xml_ids a ++ xml_ids b)%list.
Proof. apply flat_map_app. Qed.
Lemma ids_junk junk : Forall (fun e => is_tag e = false) junk -> xml_ids junk = [].
Proof. induction 1 as [|e l E H IH]; [reflexivity|]. unfold xml_ids in *. cbn [flat_map]. rewrite IH. destruct e; try discriminate E; reflexivity. Qed.

(* A file that loads or is refused, and that is then cut off outside a tag, still loads or is refused. *)
Theorem C57_cut_returns_partial : forall O p cut rest, props_ok normal p ->
  tags_readable (read_text (cut ++ rest)) -> NoDup (xml_ids (read_text (cut ++ rest))) -> PropsLoad.features_placed (read_text (cut ++ rest)) -> tags_closed cut ->
  exists n v, (forall fuel, n <= fuel -> doc_from_bytes fuel O p cut = v) /\ ((exists d, v = Ok d) \/ exists x, v = Err x).
Proof.
  intros O p cut rest GP RD ND FP TC. unfold doc_from_bytes. unfold read_text in *.
  destruct (read_cut_closed (S (String.length cut)) (S (String.length (cut ++ rest))) [] cut rest) as (pre & junk & post & A & B & C); [lia|lia|exact TC|]. rewrite B in RD, ND, FP. rewrite A. apply C57_load_returns_partial; [exact GP| | |].
  - intros ns name a I'. apply (RD ns name a). destruct (no_tag_in _ C ns name a) as (N1 & N2). destruct I' as [I'|I']; apply in_app_or in I'; destruct I' as [I'|I']; try contradiction; [left|right]; apply in_or_app; left; exact I'.
  - rewrite ids_app in *. rewrite (ids_junk _ C), app_nil_r. apply NoDup_app_inv in ND. apply ND.
  - intros a name attrs r t E BT. assert (S : exists r', pre = (a ++ EvStart NsFolia name attrs :: r')%list /\ r = (r' ++ junk)%list).
    { clear - E C. revert pre E. induction a as [|x a IH]; intros [|y pre] E; cbn [app] in E.
      - destruct (no_tag_in _ C NsFolia name attrs) as (N1 & _). contradiction N1. rewrite E. left. reflexivity.
      - injection E as -> E. exists pre. auto.
      - destruct (no_tag_in _ C NsFolia name attrs) as (N1 & _). contradiction N1. rewrite E. right. apply in_or_app. right. left. reflexivity.
      - injection E as -> E. destruct (IH _ E) as (r' & -> & ->). exists r'. auto. }
    destruct S as (r' & -> & ->). eapply placed_cut; [exact C|]. eapply (FP a name attrs (r' ++ post)%list t); [|exact BT]. rewrite <- app_assoc. reflexivity.
Qed.
Print Assumptions C57_cut_returns_partial.

(* ---------------------------------------------------------------- the hypotheses hold of a saved file, cut off in a text *)
Lemma elem_finished t : forall q x r, elem_until q t = (x, Some r) ->
  match q with None => quoted x | Some c => c = dq \/ c = sq -> exists v y, x = v ++ String c y /\ (forall a b, v <> a ++ String c b) /\ quoted y end.
Proof.
  induction t as [|a t IH]; intros q x r H; cbn [elem_until] in H; [discriminate|]. destruct q as [c|].
  - destruct (elem_until (if Ascii.eqb a c then None else Some c) t) as [x' r'] eqn:E. cbn [fst snd] in H. injection H as <- ->. specialize (IH _ _ _ E). intros D. destruct (Ascii.eqb_spec a c) as [->|N].
    + exists "", x'. split; [reflexivity|]. split; [intros [|? ?] b; discriminate|exact IH].
    + destruct (IH D) as (v & y & -> & NV & Q). exists (String a v), y. split; [reflexivity|]. split; [|exact Q]. intros [|a' z] b EQ; cbn [append] in EQ; injection EQ as E1 E2; [congruence|exact (NV _ _ E2)].
  - destruct (Ascii.eqb_spec a ">") as [->|N]; [injection H as <- _; constructor|].
    destruct (elem_until (if Ascii.eqb a dq || Ascii.eqb a sq then Some a else None) t) as [x' r'] eqn:E. cbn [fst snd] in H. injection H as <- ->. specialize (IH _ _ _ E).
    destruct (Ascii.eqb_spec a dq) as [->|N1]; cbn [orb] in *; [destruct (IH (or_introl eq_refl)) as (v & y & -> & NV & Q); apply quoted_value; auto|].
    destruct (Ascii.eqb_spec a sq) as [->|N2]; [destruct (IH (or_intror eq_refl)) as (v & y & -> & NV & Q); apply quoted_value; auto|]. constructor; assumption.
Qed.
Definition mark (t : string) : bool := match t with String b _ => Ascii.eqb b "/" || Ascii.eqb b "!" || Ascii.eqb b "?" | "" => false end.
Fixpoint tags_closedb (s : string) : bool :=
  match s with "" => true | String a t => (negb (Ascii.eqb a "<") || is_some (snd (elem_until None t)) || mark t) && tags_closedb t end.
Lemma tags_closedb_spec s : tags_closedb s = true -> tags_closed s.
Proof.
  induction s as [|a s IH]; intros H before t E; [destruct before; discriminate|]. cbn [tags_closedb] in H. apply andb_prop in H. destruct H as (H & HS). destruct before as [|b before]; cbn [append] in E; injection E as -> E; [|exact (IH HS _ _ E)].
  subst s. cbn [negb Ascii.eqb Bool.eqb orb] in H. apply orb_prop in H. destruct H as [H|H].
  - left. pose proof (elem_exact t None) as P. destruct (elem_until None t) as [x [r|]] eqn:EL; [|discriminate]. exists x, r. split; [exact P|exact (elem_finished _ None _ _ EL)].
  - right. destruct t as [|b t]; [discriminate|]. exists b, t. split; [reflexivity|]. cbn [mark] in H. repeat (apply orb_prop in H; destruct H as [H|H]); apply Ascii.eqb_eq in H; auto.
Qed.
Definition readableb (l : xattrs) : bool := forallb (fun x => match x with Some (mkXA _ (Some _)) => true | _ => false end) l.
Definition tags_readableb (l : list event) : bool := forallb (fun e => match e with EvStart _ _ a | EvEmpty _ _ a => readableb a | _ => true end) l.
Lemma tags_readableb_spec l : tags_readableb l = true -> tags_readable l.
Proof.
  unfold tags_readableb. rewrite forallb_forall. intros H ns name a I' x J. assert (R : readableb a = true) by (destruct I' as [I'|I']; exact (H _ I')). unfold readableb in R. rewrite forallb_forall in R. specialize (R _ J). destruct x as [[k [v|]]|]; try discriminate. eauto.
Qed.
Definition fitsb (t : ElementType) (st : list ElementType) : bool := negb (et_eqb t ET_Feature) || match st with p :: _ => is_some (et_annotationtype p) | [] => true end.
Fixpoint placed_in (st : list ElementType) (l : list event) : bool :=
  match l with
  | [] => true
  | EvStart NsFolia name _ :: r => match et_from_str name with Some t => fitsb t st && placed_in (t :: st) r | None => true end
  | EvEmpty NsFolia name _ :: r => match et_from_str name with Some t => fitsb t st && placed_in st r | None => true end
  | EvEnd NsFolia _ :: r => match st with _ :: ((_ :: _) as rest) => placed_in rest r | _ => true end
  | _ :: r => placed_in st r
  end.
Lemma fitsb_spec t st : fitsb t st = true -> fits t st.
Proof. unfold fitsb, fits. intros H ->. cbn in H. destruct st as [|p st]; [exact Logic.I|]. destruct (et_annotationtype p); [discriminate|discriminate H]. Qed.
Lemma placed_in_spec l : forall st, placed_in st l = true -> placed st l.
Proof.
  induction l as [|e l IH]; intros st H; [exact Logic.I|]. destruct e as [ns name a|ns name a|ns name| | | | |]; cbn [placed placed_in] in *; try (apply IH, H); destruct ns; try (apply IH, H).
  - intros t T. rewrite T in H. apply andb_prop in H. split; [apply fitsb_spec, H|apply IH, H].
  - intros t T. rewrite T in H. apply andb_prop in H. split; [apply fitsb_spec, H|apply IH, H].
  - destruct st as [|? [|? ?]]; try exact Logic.I. apply IH, H.
Qed.
Fixpoint features_in (l : list event) : bool :=
  match l with
  | [] => true
  | e :: r => match e with EvStart NsFolia name _ => (if String.eqb name "text" then placed_in [ET_Text] r else true) && (if String.eqb name "speech" then placed_in [ET_Speech] r else true) | _ => true end && features_in r
  end.
Lemma features_in_spec l : features_in l = true -> PropsLoad.features_placed l.
Proof.
  induction l as [|e l IH]; intros H a name attrs r t E BT; [destruct a; discriminate|]. cbn [features_in] in H. apply andb_prop in H. destruct H as (H & HL). destruct a as [|x a]; cbn [app] in E; injection E as -> E; [|exact (IH HL _ _ _ _ _ E BT)]. subst r.
  apply placed_in_spec. apply andb_prop in H. destruct H as (H1 & H2). destruct BT as [(-> & ->)|(-> & ->)]; assumption.
Qed.
Fixpoint distinctb (l : list string) : bool := match l with [] => true | x :: r => negb (existsb (String.eqb x) r) && distinctb r end.
Lemma distinctb_spec l : distinctb l = true -> NoDup l.
Proof.
  induction l as [|x l IH]; intros H; [constructor|]. cbn [distinctb] in H. apply andb_prop in H. destruct H as (H & HL). constructor; [|apply IH, HL]. intros I'. apply negb_true_iff in H. assert (T : existsb (String.eqb x) l = true) by (apply existsb_exists; exists x; split; [exact I'|apply String.eqb_refl]). congruence.
Qed.
(* a saved document, cut off before the first occurrence of x *)
Definition cut_ok (x : string) (d : document) : bool :=
  match doc_bytes fuel1 rt_oracle d 0 2 with
  | Ok s => String.prefix (cut_at x s) s && negb (String.eqb (cut_at x s) "") && tags_readableb (read_text s) && distinctb (xml_ids (read_text s)) && features_in (read_text s) && tags_closedb (cut_at x s)
  | _ => false
  end.
Lemma cut_ok_spec x d : cut_ok x d = true -> exists cut rest, doc_bytes fuel1 rt_oracle d 0 2 = Ok (cut ++ rest) /\ cut <> "" /\
  tags_readable (read_text (cut ++ rest)) /\ NoDup (xml_ids (read_text (cut ++ rest))) /\ PropsLoad.features_placed (read_text (cut ++ rest)) /\ tags_closed cut.
Proof.
  unfold cut_ok. destruct (doc_bytes fuel1 rt_oracle d 0 2) as [s| | |]; try discriminate. intros H. repeat match type of H with _ && _ = true => apply andb_prop in H; destruct H as (H & ?) end. apply prefix_app in H. destruct H as (rest & E). exists (cut_at x s), rest. rewrite <- E.
  split; [reflexivity|]. split; [intros Q; rewrite Q in *; discriminate|]. split; [apply tags_readableb_spec; assumption|]. split; [apply distinctb_spec; assumption|]. split; [apply features_in_spec; assumption|apply tags_closedb_spec; assumption].
Qed.
Example C57_cut_nonvacuous : exists cut rest, doc_bytes fuel1 rt_oracle ex_doc 0 2 = Ok (cut ++ rest) /\ cut <> "" /\ props_ok normal no_props /\
  tags_readable (read_text (cut ++ rest)) /\ NoDup (xml_ids (read_text (cut ++ rest))) /\ PropsLoad.features_placed (read_text (cut ++ rest)) /\ tags_closed cut.
Proof.
  assert (H : cut_ok "</t>" ex_doc = true) by (vm_compute; reflexivity). destruct (cut_ok_spec _ _ H) as (cut & rest & A & B & C). exists cut, rest. split; [exact A|]. split; [exact B|]. split; [exact no_props_ok|exact C].
Qed.

(* Not so in a tag: the example document is saved, the file loads, but cut off in the value of an attribute it makes the parser panic. *)
Definition cut_panics (x : string) (d : document) : bool :=
  match doc_bytes fuel1 rt_oracle d 0 2 with
  | Ok s => String.prefix (cut_at x s) s && match doc_from_bytes fuel1 rt_oracle no_props s with Ok _ => true | _ => false end && match doc_from_bytes fuel1 rt_oracle no_props (cut_at x s) with Panic => true | _ => false end
  | _ => false
  end.
Lemma cut_panics_spec x d : cut_panics x d = true -> exists cut rest d', doc_bytes fuel1 rt_oracle d 0 2 = Ok (cut ++ rest) /\ doc_from_bytes fuel1 rt_oracle no_props (cut ++ rest) = Ok d' /\ forall fuel, fuel1 <= fuel -> doc_from_bytes fuel rt_oracle no_props cut = Panic.
Proof.
  unfold cut_panics. destruct (doc_bytes fuel1 rt_oracle d 0 2) as [s| | |]; try discriminate. intros H. apply andb_prop in H. destruct H as (H & H3). apply andb_prop in H. destruct H as (H & H2). apply prefix_app in H. destruct H as (rest & E). exists (cut_at x s), rest. rewrite <- E.
  destruct (doc_from_bytes fuel1 rt_oracle no_props s) as [d'| | |]; try discriminate. exists d'. split; [reflexivity|]. split; [reflexivity|]. intros fuel L. destruct (doc_from_bytes fuel1 rt_oracle no_props (cut_at x s)) eqn:P; try discriminate. rewrite <- P. apply bytes_mono; [exact L|congruence].
Qed.
Theorem C57_cut_tag_refuted : exists d cut rest d', tidy d /\ doc_bytes fuel1 rt_oracle d 0 2 = Ok (cut ++ rest) /\ doc_from_bytes fuel1 rt_oracle no_props (cut ++ rest) = Ok d' /\
  forall fuel, fuel1 <= fuel -> doc_from_bytes fuel rt_oracle no_props cut = Panic.
Proof.
  assert (H : cut_panics "w.3""" ex_doc = true) by (vm_compute; reflexivity). destruct (cut_panics_spec _ _ H) as (cut & rest & d' & Q). exists ex_doc, cut, rest, d'. split; [exact ex_tidy|exact Q].
Qed.
Print Assumptions C57_cut_tag_refuted.
