(* The bytes of a document are well-formed XML. *)
From Coq Require Import String Ascii List Bool Arith NArith Lia.
From Verif Require Import Base BaseFacts Types SpecTable Attrib Element Store Metadata Document Select DocOps Xml Serialiser SerSpec PropsSer XmlText XmlTextFacts XmlSpec.
Import ListNotations.
Open Scope string_scope.

Lemma nested_indent i l : nested_events l -> forall dep b, nested_events (w_indent i dep b l) /\ exists b', forall r, w_indent i dep b (l ++ r) = (w_indent i dep b l ++ w_indent i dep b' r)%list.
Proof.
  assert (NA : forall x y, nested_events x -> nested_events y -> nested_events (x ++ y)) by (intros x y; apply nested_app).
  assert (PRE : forall (c : bool) t, nested_events (if c then [WText t] else [])) by (intros [] t; repeat constructor).
  intros N. induction N as [|s l N IH|s l N IH|n a l N IH|n a body l N1 IH1 N2 IH2]; intros dep b; cbn [w_indent].
  - split; [constructor|]. exists b. reflexivity.
  - destruct (IH dep false) as (A & b' & B). split; [constructor; exact A|]. exists b'. intros r. cbn [app w_indent]. rewrite B. reflexivity.
  - destruct (IH dep true) as (A & b' & B). split; [apply NA; [apply PRE|constructor; exact A]|]. exists b'. intros r. cbn [app w_indent]. rewrite B, <- app_assoc. reflexivity.
  - destruct (IH dep true) as (A & b' & B). split; [apply NA; [apply PRE|constructor; exact A]|]. exists b'. intros r. cbn [app w_indent]. rewrite B, <- app_assoc. reflexivity.
  - destruct (IH1 (S dep) true) as (A1 & b1 & B1). destruct (IH2 dep true) as (A2 & b2 & B2). split.
    + apply NA; [apply PRE|]. rewrite B1. cbn [w_indent pred]. rewrite app_assoc. constructor; [apply NA; [exact A1|apply PRE]|exact A2].
    + exists b2. intros r. cbn [app w_indent]. rewrite <- !app_assoc. cbn [app]. rewrite !B1. cbn [w_indent pred]. rewrite B2. repeat (rewrite <- !app_assoc; cbn [app]). reflexivity.
Qed.
Lemma every_spaces n : legal_text (spaces n).
Proof. induction n as [|n IH]; [exact Logic.I|]. split; [left; cbn; lia|exact IH]. Qed.
Lemma legal_indent i l : Forall legal_event l -> forall dep b, Forall legal_event (w_indent i dep b l).
Proof.
  assert (P : forall c m, Forall legal_event (if c : bool then [WText (nl ++ spaces m)] else [])).
  { intros [] m; [|constructor]. constructor; [|constructor]. split; [right; right; left; reflexivity|apply every_spaces]. }
  intros F. induction F as [|e l E F IH]; intros dep b; [constructor|].
  destruct e; cbn [w_indent]; try (apply Forall_app; split; [apply P|]); constructor; auto.
Qed.

(* ---------------------------------------------------------------- names and values *)
Lemma name_char_part a : name_char a = true -> name_part a.
Proof.
  unfold name_char, name_part, name_start. intros H. apply orb_prop in H. destruct H as [H|H]; [apply orb_prop in H; destruct H as [H|H]; [apply orb_prop in H; destruct H as [H|H]; [apply orb_prop in H; destruct H as [H|H]; [apply orb_prop in H; destruct H as [H|H]|]|]|]|].
  - apply andb_prop in H. destruct H as (A & B). apply N.leb_le in A, B. left. left. left. lia.
  - apply andb_prop in H. destruct H as (A & B). apply N.leb_le in A, B. left. left. right. left. lia.
  - apply andb_prop in H. destruct H as (A & B). apply N.leb_le in A, B. right. left. lia.
  - apply N.eqb_eq in H. right. right. left. rewrite <- (ascii_N_embedding a), H. reflexivity.
  - apply N.eqb_eq in H. left. right. left. rewrite <- (ascii_N_embedding a), H. reflexivity.
  - apply N.eqb_eq in H. left. right. right. rewrite <- (ascii_N_embedding a), H. reflexivity.
Qed.
Lemma chars_every p (P : ascii -> Prop) s : (forall a, p a = true -> P a) -> chars p s = true -> every P s.
Proof. intros H. induction s as [|a s IH]; cbn [chars every]; intros C; [exact Logic.I|]. apply andb_prop in C. destruct C as (A & B). auto. Qed.
Lemma name_ok s : key_name s = true -> xml_name s.
Proof.
  unfold key_name. intros K. apply andb_prop in K. destruct K as (B & K). destruct s as [|a r]; [discriminate|]. cbn [chars begins] in K, B. apply andb_prop in K. exists a, r. split; [reflexivity|]. split.
  - unfold letter in B. apply orb_prop in B. left. destruct B as [B|B]; apply andb_prop in B; destruct B as (X & Y); apply N.leb_le in X, Y; [left|right; left]; lia.
  - apply (chars_every name_char); [apply name_char_part|apply K].
Qed.
Lemma escape_cases a : (In (escape_char a) ["&lt;"; "&gt;"; "&amp;"; "&quot;"; "&#39;"]) \/ (escape_char a = String a "" /\ a <> "<"%char /\ a <> ">"%char /\ a <> "&"%char /\ String a "" <> quote).
Proof.
  unfold escape_char. destruct (Ascii.eqb_spec a "<") as [->|E1]; [left; cbn; auto 10|]. destruct (Ascii.eqb_spec a ">") as [->|E2]; [left; cbn; auto 10|]. destruct (Ascii.eqb_spec a "'") as [->|E3]; [left; cbn; auto 10|].
  destruct (Ascii.eqb_spec a "&") as [->|E4]; [left; cbn; auto 10|]. destruct (Nat.eqb_spec (nat_of_ascii a) 34) as [E5|E5]; [left; cbn; auto 10|]. right. repeat split; try assumption.
  unfold quote. intros H. injection H as ->. apply E5. reflexivity.
Qed.
Lemma ref_of s : In s ["&lt;"; "&gt;"; "&amp;"; "&quot;"; "&#39;"] -> xml_reference s.
Proof. unfold xml_reference. cbn. intuition auto. Qed.
Lemma value_ok s : legal_text s -> att_value (escape s).
Proof.
  induction s as [|a s IH]; cbn [escape]; intros L; [constructor|]. destruct L as (A & L). destruct (escape_cases a) as [R|(E & N1 & N2 & N3 & N4)].
  - apply value_ref; [apply ref_of, R|apply IH, L].
  - rewrite E. cbn [append]. apply value_char; auto.
Qed.
Lemma text_ok s t : legal_text s -> content t -> content (escape s ++ t).
Proof.
  intros L T. induction s as [|a s IH]; cbn [escape]; [exact T|]. destruct L as (A & L). rewrite sapp_assoc. destruct (escape_cases a) as [R|(E & N1 & N2 & N3 & N4)].
  - apply content_ref; [apply ref_of, R|apply IH, L].
  - rewrite E. cbn [append]. apply content_char; auto.
Qed.
Lemma every_app P a b : every P a -> every P b -> every P (a ++ b).
Proof. induction a as [|x a IH]; cbn [append every]; intuition auto. Qed.
Lemma comment_lit x t : every (fun a => xml_char a /\ a <> "-"%char) x -> comment_text t -> comment_text (x ++ t).
Proof. intros L T. induction x as [|a x IH]; cbn [append]; [exact T|]. destruct L as ((A & B) & L). apply comment_char; auto. Qed.
Lemma comment_ok s : comment_text s -> comment_text (escape s).
Proof.
  assert (LIT : forall a, xml_char a -> a <> "-"%char -> every (fun a => xml_char a /\ a <> "-"%char) (escape_char a)).
  { intros a A B. destruct (escape_cases a) as [R|(E & _)]; [|rewrite E; repeat split; assumption].
    cbn in R. destruct R as [<-|[<-|[<-|[<-|[<-|[]]]]]]; repeat split; try discriminate; left; cbn; lia. }
  assert (NE : forall a, xml_char a -> a <> "-"%char -> exists b r, escape_char a = String b r /\ (xml_char b /\ b <> "-"%char) /\ every (fun a => xml_char a /\ a <> "-"%char) r).
  { intros a A B. pose proof (LIT a A B) as L. destruct (escape_char a) as [|b r] eqn:E.
    - exfalso. destruct (escape_cases a) as [R|(R & _)]; rewrite E in R; [cbn in R; intuition discriminate|discriminate].
    - exists b, r. destruct L. auto. }
  intros C. induction C as [|a s A B C IH|a s A B C IH]; cbn [escape]; [constructor|apply comment_lit; auto|].
  change (escape_char "-") with "-". cbn [append]. destruct (NE a A B) as (b & r & E & (B1 & B2) & R). rewrite E. cbn [append]. apply comment_hyphen; auto. apply comment_lit; auto.
Qed.
Lemma attributes_ok l : forallb (fun p => key_name (fst p)) l = true -> NoDup (map fst l) -> Forall (fun p => legal_text (snd p)) l -> attributes (map fst l) (write_attrs l).
Proof.
  induction l as [|[k v] l IH]; intros K ND F; cbn [write_attrs map fst]; [constructor|]. cbn [forallb fst map] in *. apply andb_prop in K. destruct K as (K & K'). inversion ND; subst. inversion F; subst. cbn [snd] in *.
  change (attributes (k :: map fst l) (" " ++ k ++ "=" ++ quote ++ escape v ++ quote ++ write_attrs l)). apply attribute; auto using name_ok, value_ok.
Qed.

(* ---------------------------------------------------------------- the file *)
Definition fine (l : list wevent) : Prop := forallb good_event l = true /\ Forall legal_event l.
Lemma fine_app a b : fine (a ++ b) -> fine a /\ fine b.
Proof. intros (G & L). rewrite forallb_app in G. apply andb_prop in G. apply Forall_app in L. unfold fine. tauto. Qed.
Lemma fine_cons e b : fine (e :: b) -> fine [e] /\ fine b.
Proof. apply (fine_app [e]). Qed.
Lemma tag_fine n a : (fine [WStart n a] \/ fine [WEmpty n a]) -> xml_name n /\ attributes (map fst a) (write_attrs a).
Proof.
  intros [(G & L)|(G & L)]; cbn [forallb good_event] in G; rewrite andb_true_r in G; apply andb_prop in G; destruct G as (G1 & G2); inversion L as [|? ? L1 _]; subst; destruct L1 as (ND & F).
  all: assert (K : key_name n = true) by (unfold tag_name in G1; apply andb_prop in G1; apply G1); split; [apply name_ok; assumption|]; apply attributes_ok; auto.
  all: apply forallb_forall; intros p I'; rewrite forallb_forall in G2; specialize (G2 p I'); apply andb_prop in G2; apply G2.
Qed.
Lemma write_app a b : write_events (a ++ b) = write_events a ++ write_events b.
Proof. induction a as [|e a IH]; [reflexivity|]. cbn [app write_events]. rewrite IH, sapp_assoc. reflexivity. Qed.
Lemma content_ok l : nested_events l -> fine l -> content (write_events l).
Proof.
  intros N. induction N as [|s l N IH|s l N IH|n a l N IH|n a body l N1 IH1 N2 IH2]; intros F; [constructor| | | |]; apply fine_cons in F; destruct F as (E & F); cbn [write_events write_event].
  - apply text_ok; [destruct E as (_ & E); inversion E; assumption|apply IH, F].
  - rewrite !sapp_assoc. apply content_comment; [apply comment_ok; destruct E as (_ & E); inversion E; assumption|apply IH, F].
  - destruct (tag_fine n a (or_intror E)) as (X & A). cbn [append]. rewrite !sapp_assoc. exact (content_empty _ _ _ _ X A (IH F)).
  - destruct (tag_fine n a (or_introl E)) as (X & A). apply fine_app in F. destruct F as (F1 & F2). apply fine_cons in F2. destruct F2 as (_ & F2). rewrite write_app. cbn [write_events write_event].
    pose proof (content_element n _ _ _ _ X A (IH1 F1) (IH2 F2)) as C. cbn [append] in *. rewrite ?sapp_assoc in *. cbn [append] in *. rewrite ?sapp_assoc in *. cbn [append] in *. exact C.
Qed.

Lemma indent_fine i l : nested_events l -> fine l -> forall dep b, nested_events (w_indent i dep b l) /\ fine (w_indent i dep b l).
Proof. intros N (G & L) dep b. split; [apply nested_indent, N|]. split; [rewrite indent_good; exact G|apply legal_indent, L]. Qed.
Lemma file_ok i a body : nested_events body -> forallb good_event body = true -> forallb (fun p => key_name (fst p)) a = true -> Forall legal_event (WStart "FoLiA" a :: body) ->
  well_formed_xml (write_text i (WStart "FoLiA" a :: body ++ [WEnd "FoLiA"])).
Proof.
  intros N G K L. inversion L as [|? ? L0 L1]; subst. destruct L0 as (ND & F). unfold write_text. cbn [w_indent andb app write_events write_event].
  destruct (nested_indent i body N 1 true) as (N1 & b' & B). rewrite B, write_app.
  destruct (indent_fine i body N (conj G L1) 1 true) as (_ & F1).
  assert (C : content (write_events (w_indent i 1 true body ++ (if b' && negb (Nat.eqb i 0) then [WText (nl ++ spaces (i * 0))] else [])))).
  { apply content_ok.
    - apply nested_app; [exact N1|]. destruct (b' && negb (Nat.eqb i 0)); repeat constructor.
    - destruct F1 as (F1 & F2). split; [rewrite forallb_app, F1; destruct (b' && negb (Nat.eqb i 0)); reflexivity|]. apply Forall_app. split; [exact F2|].
      destruct (b' && negb (Nat.eqb i 0)); [|constructor]. constructor; [|constructor]. split; [right; right; left; reflexivity|apply every_spaces]. }
  exists "FoLiA", (map fst a), (write_attrs a), (write_events (w_indent i 1 true body ++ (if b' && negb (Nat.eqb i 0) then [WText (nl ++ spaces (i * 0))] else []))).
  split; [apply name_ok; reflexivity|]. split; [apply attributes_ok; assumption|]. split; [exact C|].
  cbn [w_indent pred]. rewrite !write_app. cbn [write_events write_event]. repeat first [rewrite sapp_assoc|progress cbn [append]]. reflexivity.
Qed.
