(* Facts about the bytes of a file: what is written is read back as it was handed to the writer. *)
From Coq Require Import String Ascii List Bool Arith NArith Lia.
From Verif Require Import Base Types SpecTable Attrib Element Store Metadata Document Select DocOps Xml Serialiser SerSpec BaseFacts PropsSer XmlText.
Import ListNotations.
Open Scope string_scope.

(* ---------------------------------------------------------------- strings *)
Lemma sapp_assoc (a b c : string) : (a ++ b) ++ c = a ++ b ++ c.
Proof. induction a as [|x a IH]; [reflexivity|]. cbn [append]. rewrite IH. reflexivity. Qed.
Lemma sapp_nil (a : string) : a ++ "" = a.
Proof. induction a as [|x a IH]; [reflexivity|]. cbn [append]. rewrite IH. reflexivity. Qed.
Lemma slen_app (a b : string) : String.length (a ++ b) = String.length a + String.length b.
Proof. induction a as [|x a IH]; [reflexivity|]. cbn [append String.length]. rewrite IH. reflexivity. Qed.
Fixpoint chars (p : ascii -> bool) (s : string) : bool := match s with "" => true | String a r => p a && chars p r end.
Lemma chars_app p a b : chars p (a ++ b) = chars p a && chars p b.
Proof. induction a as [|x a IH]; [reflexivity|]. cbn [append chars]. rewrite IH. apply andb_assoc. Qed.
Lemma chars_imp (p q : ascii -> bool) s : (forall a, p a = true -> q a = true) -> chars p s = true -> chars q s = true.
Proof. intros H. induction s as [|a s IH]; [reflexivity|]. cbn [chars]. intros C. apply andb_prop in C. destruct C as (A & B). rewrite (H _ A), (IH B). reflexivity. Qed.

Lemma span_app p a b : chars p a = true -> span p (a ++ b) = (a ++ fst (span p b), snd (span p b)).
Proof.
  induction a as [|x a IH]; cbn [append chars]; intros C; [destruct (span p b); reflexivity|]. apply andb_prop in C. destruct C as (A & B).
  cbn [span]. rewrite A, (IH B). reflexivity.
Qed.
Lemma span_stop p a c b : chars p a = true -> p c = false -> span p (a ++ String c b) = (a, String c b).
Proof. intros A C. rewrite (span_app _ _ _ A). cbn [span]. rewrite C. cbn [fst snd]. rewrite sapp_nil. reflexivity. Qed.
Lemma span_all p a : chars p a = true -> span p a = (a, "").
Proof. intros A. rewrite <- (sapp_nil a) at 1. rewrite (span_app _ _ _ A). cbn [span fst snd]. rewrite sapp_nil. reflexivity. Qed.
Lemma until_stop c a b : chars (fun x => negb (Ascii.eqb x c)) a = true -> until c (a ++ String c b) = (a, Some b).
Proof.
  induction a as [|x a IH]; cbn [append chars]; intros C; cbn [until]; [rewrite Ascii.eqb_refl; reflexivity|].
  apply andb_prop in C. destruct C as (A & B). apply negb_true_iff in A. rewrite A, (IH B). reflexivity.
Qed.
Lemma until_none c a : chars (fun x => negb (Ascii.eqb x c)) a = true -> until c a = (a, None).
Proof.
  induction a as [|x a IH]; cbn [chars]; intros C; cbn [until]; [reflexivity|].
  apply andb_prop in C. destruct C as (A & B). apply negb_true_iff in A. rewrite A, (IH B). reflexivity.
Qed.

(* ---------------------------------------------------------------- escaping *)
(* no markup character is left *)
Definition unmarked (a : ascii) : bool := negb (Ascii.eqb a "<" || Ascii.eqb a ">" || Ascii.eqb a dq || Ascii.eqb a sq).
Lemma escape_unmarked s : chars unmarked (escape s) = true.
Proof.
  induction s as [|a s IH]; [reflexivity|]. cbn [escape]. rewrite chars_app, IH, andb_true_r. unfold escape_char.
  destruct (Ascii.eqb a "<") eqn:E1; [reflexivity|]. destruct (Ascii.eqb a ">") eqn:E2; [reflexivity|]. destruct (Ascii.eqb a "'") eqn:E3; [reflexivity|].
  destruct (Ascii.eqb a "&") eqn:E4; [reflexivity|]. destruct (Nat.eqb (nat_of_ascii a) 34) eqn:E5; [reflexivity|].
  cbn [chars]. unfold unmarked, sq. rewrite E1, E2, E3. cbn [orb]. rewrite andb_true_r, orb_false_r. apply negb_true_iff, Ascii.eqb_neq. intros ->. discriminate E5.
Qed.
Lemma escape_app a b : escape (a ++ b) = escape a ++ escape b.
Proof. induction a as [|x a IH]; [reflexivity|]. cbn [append escape]. rewrite IH, sapp_assoc. reflexivity. Qed.
Lemma unescape_char a s : unescape_from None (escape_char a ++ s) = option_map (String a) (unescape_from None s).
Proof.
  assert (Q : forall t, option_map (append (String a "")) t = option_map (String a) t) by (intros [t|]; reflexivity).
  unfold escape_char.
  destruct (Ascii.eqb_spec a "<") as [->|E1]; [apply Q|]. destruct (Ascii.eqb_spec a ">") as [->|E2]; [apply Q|]. destruct (Ascii.eqb_spec a "'") as [->|E3]; [apply Q|].
  destruct (Ascii.eqb_spec a "&") as [->|E4]; [apply Q|]. destruct (Nat.eqb_spec (nat_of_ascii a) 34) as [E5|E5].
  - assert (a = dq) as ->. { rewrite <- (ascii_nat_embedding a), E5. reflexivity. } apply Q.
  - cbn [append unescape_from]. destruct (Ascii.eqb_spec a "&") as [E|_]; [congruence|]. reflexivity.
Qed.
Lemma unescape_escape s : unescape (escape s) = Some s.
Proof.
  unfold unescape. induction s as [|a s IH]; [reflexivity|]. cbn [escape]. rewrite unescape_char, IH. reflexivity.
Qed.

(* ---------------------------------------------------------------- names *)
Definition name_char (a : ascii) : bool :=
  let n := N_of_ascii a in
  (N.leb 97 n && N.leb n 122) || (N.leb 65 n && N.leb n 90) || (N.leb 48 n && N.leb n 57) || N.eqb n 45 || N.eqb n 95 || N.eqb n 58.
(* the names written begin with a letter *)
Definition letter (a : ascii) : bool := let n := N_of_ascii a in (N.leb 97 n && N.leb n 122) || (N.leb 65 n && N.leb n 90).
Definition begins (s : string) : bool := match s with "" => false | String a _ => letter a end.
Definition key_name (s : string) : bool := begins s && chars name_char s.
Definition tag_name (s : string) : bool := key_name s && chars (fun a => negb (Ascii.eqb a ":")) s.
Definition binds (k : string) : bool := String.eqb k "xmlns" || String.prefix "xmlns:" k.
Definition good_event (e : wevent) : bool :=
  match e with
  | WStart n a | WEmpty n a => tag_name n && forallb (fun p => key_name (fst p) && negb (binds (fst p))) a
  | WEnd n => tag_name n
  | _ => true
  end.

(* a name has none of the characters with a meaning *)
Definition inert (a : ascii) : bool :=
  unmarked a && negb (is_space a || Ascii.eqb a "=") && negb (Ascii.eqb a "/" || Ascii.eqb a "!" || Ascii.eqb a "?").
Lemma name_inert a : name_char a = true -> inert a = true.
Proof. destruct a as [[] [] [] [] [] [] [] []]; vm_compute; intros; congruence. Qed.
Lemma key_inert s : key_name s = true -> chars inert s = true.
Proof. unfold key_name. intros H. apply andb_prop in H. apply (chars_imp _ _ _ name_inert), H. Qed.
Lemma inert_key a : inert a = true -> negb (is_space a || Ascii.eqb a "=") = true.
Proof. unfold inert. intros H. apply andb_prop in H. destruct H as (H & _). apply andb_prop in H. apply H. Qed.
Lemma inert_solid a : inert a = true -> negb (is_space a) = true.
Proof. intros H. apply inert_key in H. destruct (is_space a); [discriminate|reflexivity]. Qed.
Lemma inert_un a : inert a = true -> unmarked a = true.
Proof. unfold inert. intros H. apply andb_prop in H. destruct H as (H & _). apply andb_prop in H. apply H. Qed.

(* ---------------------------------------------------------------- the end of a tag *)
Lemma un_not a : unmarked a = true -> Ascii.eqb a "<" = false /\ Ascii.eqb a ">" = false /\ Ascii.eqb a dq = false /\ Ascii.eqb a sq = false.
Proof. unfold unmarked. destruct (Ascii.eqb a "<"), (Ascii.eqb a ">"), (Ascii.eqb a dq), (Ascii.eqb a sq); intros; try discriminate; auto. Qed.
Lemma elem_plain x s : chars unmarked x = true -> elem_until None (x ++ s) = (x ++ fst (elem_until None s), snd (elem_until None s)).
Proof.
  induction x as [|a x IH]; cbn [append chars]; intros C; [destruct (elem_until None s); reflexivity|]. apply andb_prop in C. destruct C as (A & B).
  destruct (un_not _ A) as (_ & Q1 & Q2 & Q3). cbn [elem_until]. rewrite Q1, Q2, Q3. cbn [orb]. rewrite (IH B). reflexivity.
Qed.
Lemma elem_quoted x s : chars unmarked x = true -> elem_until (Some dq) (x ++ String dq s) = (x ++ String dq (fst (elem_until None s)), snd (elem_until None s)).
Proof.
  induction x as [|a x IH]; cbn [append chars]; intros C; [cbn [elem_until]; rewrite Ascii.eqb_refl; reflexivity|]. apply andb_prop in C. destruct C as (A & B).
  destruct (un_not _ A) as (_ & Q1 & Q2 & Q3). cbn [elem_until]. rewrite Q2. rewrite (IH B). reflexivity.
Qed.
Lemma elem_attrs_until l s : forallb (fun p => key_name (fst p)) l = true -> elem_until None (write_attrs l ++ s) = (write_attrs l ++ fst (elem_until None s), snd (elem_until None s)).
Proof.
  induction l as [|[k v] l IH]; cbn [forallb write_attrs append fst]; intros C; [destruct (elem_until None s); reflexivity|]. apply andb_prop in C. destruct C as (A & B).
  cbn [elem_until]. change (Ascii.eqb " " ">") with false. change (Ascii.eqb " " dq || Ascii.eqb " " sq) with false. cbv iota.
  rewrite !sapp_assoc. rewrite elem_plain by (apply (chars_imp inert); [apply inert_un|apply key_inert, A]).
  cbn [append elem_until]. change (Ascii.eqb "=" ">") with false. change (Ascii.eqb "=" dq || Ascii.eqb "=" sq) with false. cbv iota.
  change (Ascii.eqb dq ">") with false. change (Ascii.eqb dq dq || Ascii.eqb dq sq) with true. cbv iota. cbn [elem_until].
  rewrite sapp_assoc. cbn [append]. rewrite elem_quoted by apply escape_unmarked. rewrite (IH B). cbn [fst snd]. repeat first [rewrite sapp_assoc|progress cbn [append]]. reflexivity.
Qed.

(* ---------------------------------------------------------------- the attributes *)
Fixpoint raw_of (seen : list string) (l : list (string * string)) : list (option (string * string)) :=
  match l with
  | [] => []
  | (k, v) :: r => if existsb (String.eqb k) seen then [None] else Some (k, escape v) :: raw_of (k :: seen) r
  end.
Lemma raw_read l : forall n seen, forallb (fun p => key_name (fst p)) l = true -> length l < n -> raw_attrs n seen (write_attrs l) = raw_of seen l.
Proof.
  induction l as [|[k v] l IH]; intros n seen G L; (destruct n as [|n]; [lia|]); cbn [raw_attrs]; [reflexivity|]. cbn [forallb fst length] in G, L. apply andb_prop in G. destruct G as (A & B).
  cbn [write_attrs raw_of]. cbn [span]. change (is_space " ") with true. cbn [negb fst snd]. cbn [span]. change (is_space " ") with true. cbn [fst snd].
  destruct k as [|c k]; [discriminate A|]. pose proof (key_inert _ A) as KI. cbn [chars] in KI. apply andb_prop in KI. destruct KI as (CI & KI).
  cbn [append span]. pose proof (inert_solid _ CI) as CS. apply negb_true_iff in CS. rewrite CS. cbn [snd].
  rewrite (span_stop _ k "=") by (apply (chars_imp inert); [apply inert_key|exact KI] || reflexivity).
  cbn [span snd]. change (is_space "=") with false. cbv iota. cbn [snd]. cbv iota.
  destruct (existsb (String.eqb (String c k)) seen) eqn:ES; [reflexivity|].
  cbn [span]. change (is_space dq) with false. cbv iota. cbn [snd]. change (Ascii.eqb dq dq || Ascii.eqb dq sq) with true. cbv iota.
  rewrite until_stop.
  - rewrite IH by (assumption || lia). reflexivity.
  - apply (chars_imp unmarked); [|apply escape_unmarked]. intros a U. apply negb_true_iff, un_not, U.
Qed.
Lemma read_raw_of l : forall seen, read_raw (raw_of seen l) = read_attrs seen l.
Proof.
  induction l as [|[k v] l IH]; intros seen; cbn [raw_of read_attrs]; [reflexivity|]. destruct (existsb (String.eqb k) seen); [reflexivity|].
  unfold read_raw in *. cbn [map option_map fst snd]. rewrite IH, unescape_escape. reflexivity.
Qed.
Lemma attrs_written l : forallb (fun p => key_name (fst p)) l = true -> attrs_in (write_attrs l) = raw_of [] l.
Proof.
  intros G. apply raw_read; [exact G|]. assert (Q : length l <= String.length (write_attrs l)); [|lia]. clear G. induction l as [|[k v] l IH]; cbn [write_attrs length String.length]; [lia|].
  rewrite slen_app. cbn [String.length]. rewrite slen_app. cbn [String.length]. lia.
Qed.
Lemma bindings_none l : forall seen, forallb (fun p => negb (binds (fst p))) l = true -> bindings (raw_of seen l) = [].
Proof.
  induction l as [|[k v] l IH]; intros seen G; cbn [raw_of]; [reflexivity|]. cbn [forallb fst] in G. apply andb_prop in G. destruct G as (A & B).
  destruct (existsb (String.eqb k) seen); [reflexivity|]. unfold bindings in *. cbn [flat_map]. rewrite (IH _ B). unfold binds in A. destruct (String.eqb k "xmlns"); [discriminate A|].
  cbn [orb] in A. destruct (String.prefix "xmlns:" k); [discriminate A|]. reflexivity.
Qed.

(* ---------------------------------------------------------------- a start or empty tag *)
Lemma ends_in_app c x y : y <> "" -> ends_in c (x ++ y) = ends_in c y.
Proof.
  intros Y. induction x as [|a x IH]; [reflexivity|]. cbn [append]. rewrite <- IH. cbn [ends_in]. destruct (x ++ y) eqn:E; [|reflexivity].
  destruct x, y; try discriminate E. congruence.
Qed.
Lemma ends_in_chars c x : chars (fun a => negb (Ascii.eqb a c)) x = true -> ends_in c x = false.
Proof.
  induction x as [|a x IH]; [reflexivity|]. cbn [chars]. intros C. apply andb_prop in C. destruct C as (A & B). cbn [ends_in]. destruct x; [apply negb_true_iff, A|apply IH, B].
Qed.
Lemma ends_in_attrs l : ends_in "/" (write_attrs l) = false.
Proof.
  induction l as [|[k v] l IH]; [reflexivity|]. cbn [write_attrs].
  change (String " " (k ++ String "=" (String dq (escape v ++ String dq (write_attrs l))))) with (String " " k ++ (String "=" (String dq (escape v ++ String dq (write_attrs l))))).
  rewrite ends_in_app by discriminate. change (String "=" (String dq (escape v ++ String dq (write_attrs l)))) with (String "=" (String dq (escape v)) ++ String dq (write_attrs l)).
  rewrite ends_in_app by discriminate. cbn [ends_in]. destruct (write_attrs l); [reflexivity|exact IH].
Qed.
Lemma drop_last_app x c : drop_last (x ++ String c "") = x.
Proof. induction x as [|a x IH]; [reflexivity|]. cbn [append drop_last]. rewrite IH. destruct x; reflexivity. Qed.
Lemma tag_parts n l : key_name n = true -> span (fun a => negb (is_space a)) (n ++ write_attrs l) = (n, write_attrs l).
Proof.
  intros K. assert (C : chars (fun a => negb (is_space a)) n = true) by (apply (chars_imp inert); [apply inert_solid|apply key_inert, K]).
  destruct l as [|[k v] l]; cbn [write_attrs]; [rewrite sapp_nil; apply span_all, C|]. apply span_stop; [exact C|reflexivity].
Qed.
Lemma tag_no_slash n l : key_name n = true -> ends_in "/" (n ++ write_attrs l) = false.
Proof.
  intros K. destruct (write_attrs l) eqn:E.
  - rewrite sapp_nil. apply ends_in_chars. apply (chars_imp inert); [|apply key_inert, K]. intros a H. unfold inert in H. apply andb_prop in H. destruct H as (_ & H). destruct (Ascii.eqb a "/"); [discriminate H|reflexivity].
  - rewrite ends_in_app by discriminate. rewrite <- E. apply ends_in_attrs.
Qed.
Lemma local_of n : tag_name n = true -> local_name n = n.
Proof. unfold tag_name. intros H. apply andb_prop in H. unfold local_name. rewrite until_none by apply H. reflexivity. Qed.
Lemma namespace_of env n : tag_name n = true -> namespace env n = namespace env "".
Proof. unfold tag_name. intros H. apply andb_prop in H. unfold namespace. rewrite until_none by apply H. reflexivity. Qed.

Lemma first_char n : key_name n = true -> exists c r, n = String c r /\ Ascii.eqb c "/" = false /\ Ascii.eqb c "!" = false /\ Ascii.eqb c "?" = false.
Proof.
  destruct n as [|c r]; [discriminate|]. intros K. apply key_inert in K. cbn [chars] in K. apply andb_prop in K. destruct K as (K & _). unfold inert in K. apply andb_prop in K. destruct K as (_ & K).
  exists c, r. destruct (Ascii.eqb c "/"), (Ascii.eqb c "!"), (Ascii.eqb c "?"); try discriminate K. auto.
Qed.
Lemma read_start m st n a s : tag_name n = true -> forallb (fun p => key_name (fst p)) a = true ->
  read_loop (S m) st (write_event (WStart n a) ++ s) =
  (EvStart (namespace (bindings (raw_of [] a) ++ env_of st) "") n (read_attrs [] a) :: read_loop m ((n, bindings (raw_of [] a)) :: st) s)%list.
Proof.
  intros T KA. assert (K : key_name n = true) by (unfold tag_name in T; apply andb_prop in T; apply T).
  destruct (first_char n K) as (c & r & E & Q1 & Q2 & Q3).
  cbn [write_event append read_loop]. change (Ascii.eqb "<" "<") with true. cbn [negb]. cbv iota.
  assert (EU : elem_until None ((n ++ write_attrs a ++ ">") ++ s) = (n ++ write_attrs a, Some s)).
  { rewrite !sapp_assoc. rewrite elem_plain by (apply (chars_imp inert); [apply inert_un|apply key_inert, K]). rewrite elem_attrs_until by exact KA. cbn [append elem_until]. cbn [fst snd]. change (Ascii.eqb ">" ">") with true. cbn [fst snd]. rewrite sapp_nil. reflexivity. }
  rewrite EU. rewrite (tag_no_slash _ _ K), (tag_parts _ _ K), (attrs_written _ KA), (namespace_of _ _ T), (local_of _ T), read_raw_of. cbn [rest_of].
  rewrite E. cbn [append]. rewrite Q1, Q2, Q3. reflexivity.
Qed.
Lemma read_empty m st n a s : tag_name n = true -> forallb (fun p => key_name (fst p)) a = true ->
  read_loop (S m) st (write_event (WEmpty n a) ++ s) =
  (EvEmpty (namespace (bindings (raw_of [] a) ++ env_of st) "") n (read_attrs [] a) :: read_loop m st s)%list.
Proof.
  intros T KA. assert (K : key_name n = true) by (unfold tag_name in T; apply andb_prop in T; apply T).
  destruct (first_char n K) as (c & r & E & Q1 & Q2 & Q3).
  cbn [write_event append read_loop]. change (Ascii.eqb "<" "<") with true. cbn [negb]. cbv iota.
  assert (EU : elem_until None ((n ++ write_attrs a ++ "/>") ++ s) = ((n ++ write_attrs a) ++ "/", Some s)).
  { rewrite !sapp_assoc. rewrite elem_plain by (apply (chars_imp inert); [apply inert_un|apply key_inert, K]). rewrite elem_attrs_until by exact KA. reflexivity. }
  rewrite EU. rewrite ends_in_app by discriminate. change (ends_in "/" "/") with true. cbv iota. rewrite drop_last_app, (tag_parts _ _ K), (attrs_written _ KA), (namespace_of _ _ T), (local_of _ T), read_raw_of. cbn [rest_of].
  rewrite E. cbn [append]. rewrite Q1, Q2, Q3. reflexivity.
Qed.
Lemma trim_solid x : chars (fun a => negb (is_space a)) x = true -> trim_end x = x.
Proof.
  induction x as [|a x IH]; [reflexivity|]. cbn [chars]. intros C. apply andb_prop in C. destruct C as (A & B). cbn [trim_end]. apply negb_true_iff in A. rewrite A, (IH B). reflexivity.
Qed.
Lemma read_end m st n b s : tag_name n = true ->
  read_loop (S m) ((n, b) :: st) (write_event (WEnd n) ++ s) = (EvEnd (namespace (env_of ((n, b) :: st)) "") n :: read_loop m st s)%list.
Proof.
  intros T. assert (K : key_name n = true) by (unfold tag_name in T; apply andb_prop in T; apply T).
  cbn [write_event append read_loop]. change (Ascii.eqb "<" "<") with true. change (Ascii.eqb "/" "/") with true. cbn [negb]. cbv iota.
  rewrite sapp_assoc. cbn [append]. rewrite until_stop.
  - rewrite trim_solid by (apply (chars_imp inert); [apply inert_solid|apply key_inert, K]). rewrite String.eqb_refl, (namespace_of _ _ T), (local_of _ T). reflexivity.
  - apply (chars_imp inert); [|apply key_inert, K]. intros a H. apply inert_un in H. apply negb_true_iff, un_not, H.
Qed.
Lemma substring_all s : substring 0 (String.length s) s = s.
Proof. induction s as [|a s IH]; [reflexivity|]. cbn [String.length substring]. rewrite IH. reflexivity. Qed.
Lemma substring_drop e s : substring (String.length e) (String.length (e ++ s) - String.length e) (e ++ s) = s.
Proof.
  induction e as [|a e IH]; [cbn [String.length append]; rewrite Nat.sub_0_r; apply substring_all|]. cbn [String.length append substring Nat.sub]. exact IH.
Qed.
Lemma comment_end x s : chars (fun a => negb (Ascii.eqb a ">")) x = true -> until_str "-->" (x ++ "-->" ++ s) = Some (x, s).
Proof.
  induction x as [|a x IH]; intros C.
  - cbn [append until_str]. change (String.prefix "-->" (String "-" (String "-" (String ">" s)))) with (String.prefix "" s). replace (String.prefix "" s) with true by (destruct s; reflexivity).
    change (String "-" (String "-" (String ">" s))) with ("-->" ++ s). rewrite substring_drop. reflexivity.
  - cbn [chars] in C. apply andb_prop in C. destruct C as (A & B). cbn [append until_str].
    assert (P : String.prefix "-->" (String a (x ++ "-->" ++ s)) = false).
    { destruct x as [|b x]; [cbn [append String.prefix]; destruct (ascii_dec "-" a); reflexivity|]. cbn [chars] in B. apply andb_prop in B. destruct B as (_ & B).
      cbn [append String.prefix]. destruct (ascii_dec "-" a); [|reflexivity]. destruct (ascii_dec "-" b); [|reflexivity].
      destruct x as [|c x]; cbn [append]; [reflexivity|]. cbn [chars] in B. apply andb_prop in B. destruct B as (B & _). cbn [String.prefix]. destruct (ascii_dec ">" c) as [<-|]; [discriminate B|reflexivity]. }
    cbn [append] in P, IH |- *. rewrite P, (IH B). reflexivity.
Qed.
Lemma read_comment m st x s : read_loop (S m) st (write_event (WComment x) ++ s) = (EvComment (Some (escape x)) :: read_loop m st s)%list.
Proof.
  cbn [write_event append read_loop]. change (Ascii.eqb "<" "<") with true. change (Ascii.eqb "!" "/") with false. change (Ascii.eqb "!" "!") with true. cbn [negb]. cbv iota.
  change (String.prefix "--" (String "-" (String "-" ((escape x ++ "-->") ++ s)))) with (String.prefix "" ((escape x ++ "-->") ++ s)).
  replace (String.prefix "" ((escape x ++ "-->") ++ s)) with true by (destruct ((escape x ++ "-->") ++ s); reflexivity).
  change (String "-" (String "-" ((escape x ++ "-->") ++ s))) with ("--" ++ ((escape x ++ "-->") ++ s)). rewrite (substring_drop "--"). rewrite sapp_assoc, comment_end; [reflexivity|].
  apply (chars_imp unmarked); [|apply escape_unmarked]. intros a U. apply negb_true_iff, un_not, U.
Qed.
Lemma escape_nil s : escape s = "" -> s = "".
Proof. destruct s as [|a s]; [reflexivity|]. cbn [escape]. unfold escape_char. intros H. exfalso. repeat (match type of H with context [if ?b then _ else _] => destruct b end; try discriminate H). Qed.
(* pending text is delivered when a tag or the end of the file follows *)
Lemma read_pending m st acc s : (s = "" \/ exists r, s = String "<" r) ->
  acc <> "" -> read_loop (S m) st (escape acc ++ s) = (EvText (Some acc) :: read_loop m st s)%list.
Proof.
  intros S A. destruct (escape acc) as [|c r] eqn:E; [apply escape_nil in E; contradiction|]. pose proof (escape_unmarked acc) as U. rewrite E in U.
  assert (U' : chars (fun a => negb (Ascii.eqb a "<")) (String c r) = true) by (apply (chars_imp unmarked); [|exact U]; intros a Q; apply negb_true_iff, un_not, Q).
  pose proof U' as U1. cbn [chars] in U1. apply andb_prop in U1. destruct U1 as (U1 & _). cbn [append read_loop]. rewrite U1.
  change (String c (r ++ s)) with (String c r ++ s).
  assert (SP : span (fun a => negb (Ascii.eqb a "<")) (String c r ++ s) = (String c r, s)).
  { destruct S as [->|(q & ->)]; [rewrite sapp_nil; apply span_all, U'|apply span_stop; [exact U'|reflexivity]]. }
  rewrite SP, <- E, unescape_escape. reflexivity.
Qed.

(* ---------------------------------------------------------------- a whole file *)
(* the tags match, and nothing but text and comments is outside all tags *)
Fixpoint within (open : list string) (l : list wevent) : bool :=
  match l with
  | [] => true
  | WStart n _ :: r => match open with [] => false | _ => within (n :: open) r end
  | WEmpty _ _ :: r => match open with [] => false | _ => within open r end
  | WEnd n :: r => match open with [] => false | o :: open' => String.eqb o n && within open' r end
  | _ :: r => within open r
  end.
(* the default namespace of all open tags is that of FoLiA, bound by the outermost *)
Inductive folia_tags : open_tags -> Prop :=
  | folia_none : folia_tags []
  | folia_root n b : namespace b "" = NsFolia -> folia_tags [(n, b)]
  | folia_tag n x st : folia_tags (x :: st) -> folia_tags ((n, []) :: x :: st).
Lemma folia_ns x st : folia_tags (x :: st) -> namespace (env_of (x :: st)) "" = NsFolia.
Proof.
  remember (x :: st) as l eqn:E. intros H. revert x st E. induction H as [|n b H|n y st H IH]; intros x st' E; [discriminate| |].
  - unfold env_of. cbn [flat_map snd]. rewrite app_nil_r. exact H.
  - unfold env_of in *. cbn [flat_map snd]. exact (IH _ _ eq_refl).
Qed.
Lemma folia_pop x st : folia_tags (x :: st) -> folia_tags st.
Proof. intros H. inversion H; subst; [constructor|assumption]. Qed.
Definition not_text (e : wevent) : bool := match e with WText _ => false | _ => true end.
Lemma write_nontext e s : not_text e = true -> exists r, write_event e ++ s = String "<" r.
Proof. destruct e; intros H; try discriminate H; cbn [write_event append]; eauto. Qed.
Lemma write_len e : not_text e = true -> 1 <= String.length (write_event e).
Proof. destruct e; intros H; try discriminate H; cbn [write_event append String.length]; lia. Qed.

Lemma read_body l : forall n st acc, within (map fst st) l = true -> forallb good_event l = true -> folia_tags st ->
  String.length (escape acc ++ write_events l) < n -> read_loop n st (escape acc ++ write_events l) = w_read acc l.
Proof.
  assert (KEYS : forall a, forallb (fun p : string * string => key_name (fst p) && negb (binds (fst p))) a = true -> forallb (fun p => key_name (fst p)) a = true /\ forallb (fun p => negb (binds (fst p))) a = true).
  { induction a as [|p a IH]; [split; reflexivity|]. cbn [forallb]. intros H. apply andb_prop in H. destruct H as (H & H'). apply andb_prop in H. destruct H as (H1 & H2). destruct (IH H'). rewrite H1, H2. auto. }
  induction l as [|e l IH]; intros n st acc W G F L.
  - cbn [write_events w_read] in *. unfold flush. destruct acc as [|a acc]; [destruct n; [reflexivity|reflexivity]|].
    destruct n as [|n]; [lia|]. rewrite read_pending by (auto || discriminate). destruct n; reflexivity.
  - cbn [write_events forallb] in *. apply andb_prop in G. destruct G as (G & GL). destruct (not_text e) eqn:NT.
    + assert (STEP : forall m, String.length (write_event e ++ write_events l) < m -> read_loop m st (write_event e ++ write_events l) = w_read "" (e :: l)).
      { intros m LM. destruct m as [|m]; [lia|]. rewrite slen_app in LM. pose proof (write_len _ NT) as WL.
        assert (LM' : String.length (escape "" ++ write_events l) < m) by (cbn [escape append]; lia).
        destruct e as [t a|t a|t|t|c]; try discriminate NT; cbn [within good_event w_read flush str_is_empty app] in *.
        - apply andb_prop in G. destruct G as (T & A). destruct (KEYS _ A) as (A1 & A2). rewrite read_start by assumption. rewrite bindings_none by exact A2.
          destruct st as [|x st]; [discriminate W|]. cbn [map] in W. rewrite app_nil_l, folia_ns by exact F. unfold flush. cbn [str_is_empty app]. f_equal.
          apply (IH m ((t, []) :: x :: st) "" W GL); [constructor; exact F|exact LM'].
        - apply andb_prop in G. destruct G as (T & A). destruct (KEYS _ A) as (A1 & A2). rewrite read_empty by assumption. rewrite bindings_none by exact A2.
          destruct st as [|x st]; [discriminate W|]. cbn [map] in W. rewrite app_nil_l, folia_ns by exact F. unfold flush. cbn [str_is_empty app]. f_equal.
          apply (IH m (x :: st) "" W GL F LM').
        - destruct st as [|[o b] st]; [discriminate W|]. cbn [map fst] in W. apply andb_prop in W. destruct W as (EQ & W). apply String.eqb_eq in EQ. subst o.
          rewrite read_end by exact G. rewrite folia_ns by exact F. unfold flush. cbn [str_is_empty app]. f_equal. apply (IH m st "" W GL (folia_pop _ _ F) LM').
        - rewrite read_comment. unfold flush. cbn [str_is_empty app]. f_equal. apply (IH m _ "" W GL F LM'). }
      assert (FL : w_read acc (e :: l) = (flush acc ++ w_read "" (e :: l))%list) by (destruct e; try discriminate NT; reflexivity).
      rewrite FL. unfold flush. destruct acc as [|a acc]; [cbn [escape append str_is_empty app] in *; apply STEP, L|].
      destruct n as [|n]; [lia|]. rewrite read_pending; [|right; apply write_nontext, NT|discriminate]. cbn [str_is_empty app]. f_equal. apply STEP.
      assert (1 <= String.length (escape (String a acc))). { destruct (escape (String a acc)) eqn:E; [apply escape_nil in E; discriminate|cbn [String.length]; lia]. }
      rewrite slen_app in L. lia.
    + destruct e as [ | | |t| ]; try discriminate NT. cbn [write_event w_read within] in *. rewrite <- sapp_assoc, <- escape_app in *. apply IH; assumption.
Qed.

(* ---------------------------------------------------------------- indentation *)
Lemma indent_good i l : forall dep b, forallb good_event (w_indent i dep b l) = forallb good_event l.
Proof.
  induction l as [|e l IH]; intros dep b; [reflexivity|]. destruct e; cbn [w_indent forallb]; try (destruct (b && negb (Nat.eqb i 0)); cbn [app forallb good_event andb]; rewrite IH; reflexivity).
Qed.
Lemma indent_within i l : forall dep b open, within open (w_indent i dep b l) = within open l.
Proof.
  induction l as [|e l IH]; intros dep b open; [reflexivity|].
  destruct e; cbn [w_indent]; try (destruct (b && negb (Nat.eqb i 0)); cbn [app within]); cbn [within]; try (destruct open; [reflexivity|]); rewrite ?IH; reflexivity.
Qed.
Lemma nested_within l : nested_events l -> forall open r, open <> [] -> within open (l ++ r) = within open r.
Proof.
  intros N. induction N as [|s l N IH|s l N IH|n a l N IH|n a body l N1 IH1 N2 IH2]; intros open r NE; cbn [app within]; auto.
  - destruct open; [contradiction|]. apply IH, NE.
  - destruct open as [|o open]; [contradiction|]. rewrite <- app_assoc. cbn [app]. rewrite IH1 by discriminate. cbn [within]. rewrite String.eqb_refl. cbn [andb]. apply IH2, NE.
Qed.

(* ---------------------------------------------------------------- the names the serialiser writes *)
Lemma et_tag t : tag_name (et_as_str t) = true.
Proof. destruct t; reflexivity. Qed.
Lemma at_tag t : tag_name (at_as_str t ++ "-annotation") = true.
Proof. destruct t; reflexivity. Qed.
Lemma ab_key x : key_name (ab_as_str x) && negb (binds (ab_as_str x)) = true.
Proof. destruct x; reflexivity. Qed.
Definition good_key (p : string * string) : bool := key_name (fst p) && negb (binds (fst p)).
Lemma oattr_good k v : good_key (k, "") = true -> forallb good_key (oattr k v) = true.
Proof. intros H. destruct v; cbn [oattr forallb]; [|reflexivity]. rewrite andb_true_r. exact H. Qed.
Lemma sattr_good k v : good_key (k, "") = true -> forallb good_key (sattr k v) = true.
Proof. intros H. unfold sattr. destruct (str_is_empty v); cbn [forallb]; [reflexivity|]. rewrite andb_true_r. exact H. Qed.
Lemma proc_good p : forallb good_key (proc_attrs p) = true.
Proof. unfold proc_attrs. rewrite !forallb_app, ?sattr_good, ?oattr_good by reflexivity. reflexivity. Qed.
Lemma plain_good O l : forall x, w_plain_attrs O l = Ok x -> forallb good_key x = true.
Proof.
  induction l as [|a l IH]; intros x H; cbn [w_plain_attrs] in H; [injection H as <-; reflexivity|].
  destruct a; try (apply (IH _ H)); cbn [decodable] in H; try (apply (IH _ H)); apply rbind_ok in H; destruct H as (v & _ & H); apply rbind_ok in H; destruct H as (y & Y & H); injection H as <-;
    cbn [forallb]; rewrite (IH _ Y), andb_true_r; reflexivity.
Qed.
Lemma decoded_good d mask e x : w_decoded_attrs d mask e = Ok x -> forallb good_key x = true.
Proof.
  unfold w_decoded_attrs. intros H. apply rbind_ok in H. destruct H as (dk & _ & H). destruct dk as [dk|]; [|injection H as <-; reflexivity].
  do 5 (apply rbind_ok in H; destruct H as (? & _ & H)). apply rbind_ok in H. destruct H as (pk & _ & H). injection H as <-.
  rewrite !forallb_app, !oattr_good by reflexivity. cbn [andb].
  repeat match goal with |- context [match ?x with _ => _ end] => destruct x end; reflexivity.
Qed.
Lemma elem_good O d mask e x : elem_attrs O d mask e = Ok x -> forallb good_key x = true.
Proof. unfold elem_attrs. intros H. apply rbind_ok in H. destruct H as (a & A & H). apply rbind_ok in H. destruct H as (b & B & H). injection H as <-. rewrite forallb_app, (plain_good _ _ _ A), (decoded_good _ _ _ _ B). reflexivity. Qed.
Definition tags_in (st : list (string * ElementType)) : bool := forallb (fun p => tag_name (fst p)) st.
Lemma close_good n : forall st x, tags_in st = true -> w_close n st = Ok x -> forallb good_event (fst x) = true /\ tags_in (snd x) = true.
Proof.
  induction n as [|n IH]; intros st x T H; cbn [w_close] in H; [injection H as <-; auto|]. destruct st as [|[tag et] st]; [discriminate|].
  cbn [tags_in forallb fst] in T. apply andb_prop in T. destruct T as (T & TS). apply rbind_ok in H. destruct H as (y & Y & H). injection H as <-. destruct (IH _ _ TS Y) as (A & B). cbn [fst snd].
  split; [|exact B]. cbn [forallb good_event]. rewrite T. destruct (is_markup et); cbn [app forallb good_event wnl andb]; exact A.
Qed.
Lemma items_good O d mask l : forall depth st w, tags_in st = true -> w_items O d mask depth st l = Ok w -> forallb good_event w = true.
Proof.
  induction l as [|i l IH]; intros depth st w T H; cbn [w_items] in H.
  - injection H as <-. induction st as [|[t et] st IHs]; [reflexivity|]. cbn [tags_in forallb fst] in T. apply andb_prop in T. destruct T as (T & TS). cbn [map forallb good_event fst]. rewrite T. exact (IHs TS).
  - apply rbind_ok in H. destruct H as (x & X & H). destruct x as [closing st']. destruct (close_good _ _ _ T X) as (A & B). cbn [fst snd] in A, B.
    destruct (si_data i) as [k|k|k|k|k].
    all: try (apply rbind_ok in H; destruct H as (y & Y & H); injection H as <-; rewrite forallb_app, A; cbn [andb forallb good_event]; exact (IH _ _ _ B Y)).
    destruct (get_elementdata d k) as [e|]; [|apply rbind_ok in H; destruct H as (y & Y & H); injection H as <-; rewrite forallb_app, A; exact (IH _ _ _ B Y)].
    apply rbind_ok in H. destruct H as (attrs & AT & H). pose proof (elem_good _ _ _ _ _ AT) as GA.
    assert (TL : forall y, forallb good_event ((if nl_after_start (e_type e) then [wnl] else []) ++ y) = forallb good_event y) by (intros y; destruct (nl_after_start (e_type e)); reflexivity).
    destruct (e_data e) as [|x0 r0]; apply rbind_ok in H; destruct H as (y & Y & H); injection H as <-; rewrite forallb_app, A; cbn [forallb good_event]; rewrite TL, et_tag; cbn [andb];
      unfold good_key in GA; rewrite GA; cbn [andb].
    + exact (IH _ _ _ B Y).
    + apply (IH _ _ _) in Y; [exact Y|]. cbn [tags_in forallb fst]. rewrite et_tag. exact B.
Qed.
Lemma annotators_good d ps : forall l, w_annotators d ps = Ok l -> forallb good_event l = true.
Proof.
  induction ps as [|pk ps IH]; intros l H; cbn [w_annotators] in H; [injection H as <-; reflexivity|]. destruct (get_processor d pk); [|discriminate].
  apply rbind_ok in H. destruct H as (x & X & H). injection H as <-. cbn [forallb]. rewrite (IH _ X). reflexivity.
Qed.
Lemma declaration_good d dec l : w_declaration d dec = Ok l -> forallb good_event l = true.
Proof.
  unfold w_declaration. intros H.
  assert (GA : forallb good_key (oattr "set" (d_set dec) ++ oattr "alias" (d_alias dec) ++ oattr "format" (d_format dec))%list = true) by (rewrite !forallb_app, !oattr_good by reflexivity; reflexivity).
  unfold good_key in GA. pose proof (at_tag (d_type dec)) as T. destruct (d_processors dec) as [|q ps].
  - injection H as <-. cbn [forallb good_event wnl]. rewrite T, GA. reflexivity.
  - apply rbind_ok in H. destruct H as (x & X & H). injection H as <-. cbn [forallb good_event]. rewrite GA, forallb_app, (annotators_good _ _ _ X). cbn [forallb good_event wnl]. rewrite T. reflexivity.
Qed.
Lemma declarations_good d ds : forall l, w_declaration_list d ds = Ok l -> forallb good_event l = true.
Proof.
  induction ds as [|[dec|] ds IH]; intros l H; cbn [w_declaration_list] in H; [injection H as <-; reflexivity| |apply IH, H].
  apply rbind_ok in H. destruct H as (x & X & H). apply rbind_ok in H. destruct H as (y & Y & H). injection H as <-. rewrite forallb_app, (declaration_good _ _ _ X). apply IH, Y.
Qed.
Lemma each_good f : (forall k l, f k = Ok l -> forallb good_event l = true) -> forall ks l, w_each f ks = Ok l -> forallb good_event l = true.
Proof.
  intros F. induction ks as [|k ks IH]; intros l H; cbn [w_each] in H; [injection H as <-; reflexivity|].
  apply rbind_ok in H. destruct H as (x & X & H). apply rbind_ok in H. destruct H as (y & Y & H). injection H as <-. rewrite forallb_app, (F _ _ X). apply IH, Y.
Qed.
Lemma processor_good fuel d : forall k l, w_processor fuel d k = Ok l -> forallb good_event l = true.
Proof.
  induction fuel as [|f IH]; intros k l H; cbn [w_processor] in H; [discriminate|]. destruct (get_processor d k) as [p|]; [|injection H as <-; reflexivity].
  pose proof (proc_good p) as G. unfold good_key in G. destruct (pr_processors p) as [|s ss].
  - injection H as <-. cbn [forallb good_event wnl]. rewrite G. reflexivity.
  - apply rbind_ok in H. destruct H as (x & X & H). injection H as <-. cbn [forallb good_event]. rewrite G, forallb_app, (each_good _ IH _ _ X). reflexivity.
Qed.
Lemma meta_good l : forallb good_event (flat_map w_meta l) = true.
Proof. induction l as [|p l IH]; [reflexivity|]. cbn [flat_map w_meta]. rewrite forallb_app, IH. reflexivity. Qed.
Lemma metadata_good fuel d l : w_metadata fuel d = Ok l -> forallb good_event l = true.
Proof.
  unfold w_metadata, w_declarations, w_provenance. intros H. apply rbind_ok in H. destruct H as (ds & D & H). apply rbind_ok in D. destruct D as (x & X & D). injection D as <-.
  apply rbind_ok in H. destruct H as (ps & P & H). apply rbind_ok in P. destruct P as (y & Y & P). injection P as <-. injection H as <-.
  apply declarations_good in X. apply (each_good _ (processor_good fuel d)) in Y.
  assert (GA : forallb good_key (oattr "type" (m_type (doc_metadata d)) ++ oattr "src" (m_src (doc_metadata d)))%list = true) by (rewrite !forallb_app, !oattr_good by reflexivity; reflexivity). unfold good_key in GA.
  assert (SM : forallb good_event (flat_map (fun p : string * metadata => flat_map w_meta (m_data (snd p))) (doc_submetadata d)) = true).
  { induction (doc_submetadata d) as [|p l IH]; [reflexivity|]. cbn [flat_map]. rewrite forallb_app, meta_good. exact IH. }
  cbn [forallb good_event]. rewrite GA. repeat (cbn [forallb good_event wnl app]; rewrite ?forallb_app). rewrite X, Y, meta_good, SM. reflexivity.
Qed.
Lemma doc_parts fuel O d root w : doc_xml fuel O d root = Ok w -> exists body, nested_events body /\ forallb good_event body = true /\
  w = (WStart "FoLiA" [("xmlns", NSFOLIA); ("xmlns:xlink", NSXLINK); ("xml:id", doc_id d); ("version", FOLIAVERSION); ("generator", GENERATOR)] :: body ++ [WEnd "FoLiA"])%list.
Proof.
  intros W. destruct (C51_document_xml_nested _ _ _ _ _ W) as (attrs & body & E & N). unfold doc_xml in W. apply rbind_ok in W. destruct W as (m & M & W). apply rbind_ok in W. destruct W as (b & B & W). injection W as W.
  exists body. split; [exact N|]. rewrite E in W. assert (EB : body = wnl :: m ++ b ++ [wnl]).
  { injection W as _ W. apply (app_inv_tail [WEnd "FoLiA"]). rewrite <- W. cbn [app]. rewrite <- !app_assoc. reflexivity. }
  split.
  - unfold xml_elements in B. apply rbind_ok in B. destruct B as (items & _ & B). apply items_good in B; [|reflexivity]. rewrite EB. cbn [forallb]. rewrite !forallb_app, (metadata_good _ _ _ M), B. reflexivity.
  - rewrite E. injection W as <- _. reflexivity.
Qed.
Lemma start_read_text a l indent : forallb (fun p => key_name (fst p)) a = true -> namespace (bindings (raw_of [] a)) "" = NsFolia -> within ["FoLiA"] l = true -> forallb good_event l = true ->
  read_text (write_text indent (WStart "FoLiA" a :: l)) = reread indent (WStart "FoLiA" a :: l).
Proof.
  intros KA NS W G. unfold read_text, write_text, reread. cbn [w_indent andb app w_read write_events]. unfold flush. cbn [str_is_empty app].
  rewrite read_start by (exact KA || reflexivity). cbn [env_of flat_map]. rewrite app_nil_r, NS. f_equal. apply (read_body _ _ [("FoLiA", bindings (raw_of [] a))] "").
  - cbn [map fst]. rewrite indent_within. exact W.
  - rewrite indent_good. exact G.
  - constructor. exact NS.
  - cbn [escape append]. rewrite slen_app. pose proof (write_len (WStart "FoLiA" a) eq_refl). lia.
Qed.
Lemma read_document fuel O d root w indent : doc_xml fuel O d root = Ok w -> read_text (write_text indent w) = reread indent w.
Proof.
  intros W. destruct (doc_parts _ _ _ _ _ W) as (body & N & G & ->). apply start_read_text.
  - reflexivity.
  - reflexivity.
  - rewrite (nested_within _ N) by discriminate. reflexivity.
  - rewrite forallb_app, G. reflexivity.
Qed.

(* ---------------------------------------------------------------- the fuel *)
Lemma span_len p s : String.length (snd (span p s)) <= String.length s.
Proof. induction s as [|a s IH]; cbn [span]; [auto|]. destruct (p a); cbn [snd String.length]; lia. Qed.
Lemma until_len c s : String.length (rest_of (snd (until c s))) <= String.length s.
Proof. induction s as [|a s IH]; cbn [until]; [auto|]. destruct (Ascii.eqb a c); cbn [snd rest_of String.length]; lia. Qed.
Lemma elem_len s : forall q, String.length (rest_of (snd (elem_until q s))) <= String.length s.
Proof.
  induction s as [|a s IH]; intros q; cbn [elem_until]; [auto|].
  destruct q as [c|]; [cbn [snd String.length]; specialize (IH (if Ascii.eqb a c then None else Some c)); lia|]. destruct (Ascii.eqb a ">"); cbn [snd rest_of String.length]; [lia|].
  specialize (IH (if Ascii.eqb a dq || Ascii.eqb a sq then Some a else None)). lia.
Qed.
Lemma substring_len s : forall n m, String.length (substring n m s) <= String.length s.
Proof. induction s as [|a s IH]; intros n m; destruct n, m; cbn [substring String.length]; try lia; [specialize (IH 0 m)|specialize (IH n 0)|specialize (IH n (S m))]; lia. Qed.
Lemma until_str_len e s : forall x r, until_str e s = Some (x, r) -> String.length r <= String.length s.
Proof.
  induction s as [|a s IH]; intros x r H; cbn [until_str] in H.
  - destruct (String.prefix e ""); [|discriminate]. injection H as <- <-. destruct (String.length e); auto.
  - destruct (String.prefix e (String a s)); [apply (f_equal (fun o => match o with Some (_, y) => y | None => "" end)) in H; cbv beta iota in H; rewrite <- H; apply substring_len|]. destruct (until_str e s) as [[y q]|] eqn:E; [|discriminate]. cbn [option_map fst snd] in H. injection H as <- <-.
    specialize (IH _ _ eq_refl). cbn [String.length]. lia.
Qed.
(* the fuel of [read_text] is enough *)
Lemma read_fuel n : forall m st s, String.length s < n -> String.length s < m -> read_loop n st s = read_loop m st s.
Proof.
  induction n as [|n IH]; intros m st s N M; [lia|]. destruct m as [|m]; [lia|]. cbn [read_loop]. destruct s as [|a r]; [reflexivity|]. cbn [String.length] in N, M.
  destruct (negb (Ascii.eqb a "<")) eqn:E.
  - destruct (span (fun a => negb (Ascii.eqb a "<")) (String a r)) as [t rest] eqn:S. f_equal. cbn [span] in S. rewrite E in S. injection S as <- <-. pose proof (span_len (fun a => negb (Ascii.eqb a "<")) r). apply IH; lia.
  - destruct r as [|b r']; [reflexivity|]. cbn [String.length] in N, M. destruct (Ascii.eqb b "/").
    { destruct (until ">" r') as [x rest] eqn:U. pose proof (until_len ">" r') as L. rewrite U in L. cbn [snd] in L. destruct st as [|[o b0] st]; [reflexivity|]. destruct (String.eqb o (trim_end x)); [|reflexivity]. f_equal. apply IH; lia. }
    destruct (Ascii.eqb b "!").
    { destruct (String.prefix "--" r').
      - destruct (until_str "-->" (substring 2 (String.length r' - 2) r')) as [[x rest]|] eqn:U; [|reflexivity]. apply until_str_len in U. pose proof (substring_len r' 2 (String.length r' - 2)). f_equal. apply IH; lia.
      - destruct (String.prefix "[CDATA[" r').
        + destruct (until_str "]]>" (substring 7 (String.length r' - 7) r')) as [[x rest]|] eqn:U; [|reflexivity]. apply until_str_len in U. pose proof (substring_len r' 7 (String.length r' - 7)). f_equal. apply IH; lia.
        + destruct (String.prefix "DOCTYPE" r'); [|reflexivity]. f_equal. pose proof (until_len ">" r'). apply IH; lia. }
    destruct (Ascii.eqb b "?").
    { destruct (until ">" r') as [x rest] eqn:U. pose proof (until_len ">" r') as L. rewrite U in L. cbn [snd] in L. destruct (ends_in "?" x); [|reflexivity]. f_equal. apply IH; lia. }
    destruct (elem_until None (String b r')) as [x rest] eqn:U. pose proof (elem_len (String b r') None) as L. rewrite U in L. cbn [snd String.length] in L.
    destruct (span (fun a => negb (is_space a)) (if ends_in "/" x then drop_last x else x)) as [name more]. cbv zeta. destruct (ends_in "/" x); f_equal; apply IH; lia.
Qed.
