(* Lemmas about Attrib.v and the attribute part of Element.v *)
From Coq Require Import String Ascii List Bool Arith NArith Lia DecimalString DecimalN DecimalFacts.
From Verif Require Import Base BaseFacts Types TypesFacts SpecTable Attrib Element.
Import ListNotations.
Open Scope list_scope.

(* ---------------------------------------------------------------- u16 *)
Lemma dec_of_N_head n : exists a r, dec_of_N n = String a r /\ a <> "+"%char.
Proof.
  unfold dec_of_N. destruct (N.to_uint n) eqn:E; cbn; try (eexists _, _; split; [reflexivity|discriminate]).
  exfalso. destruct n as [|p]; [discriminate|]. cbn in E.
  assert (X : N.of_uint (N.to_uint (Npos p)) = 0%N) by (cbn; rewrite E; reflexivity).
  rewrite DecimalN.Unsigned.of_to in X. discriminate.
Qed.
Lemma u16_digits_dec n : (n <= u16_max)%N -> u16_digits (dec_of_N n) = Some n.
Proof.
  intros L. destruct (dec_of_N_head n) as (a & r & E & _). unfold u16_digits. rewrite E, <- E.
  unfold dec_of_N. rewrite NilEmpty.usu, DecimalN.Unsigned.of_to.
  apply N.leb_le in L. cbn zeta. rewrite L. reflexivity.
Qed.
Lemma u16_round n : (n <= u16_max)%N -> u16_from_str (dec_of_N n) = Some n.
Proof.
  intros L. rewrite <- (u16_digits_dec n L). destruct (dec_of_N_head n) as (a & r & -> & N).
  unfold u16_from_str. destruct a as [[] [] [] [] [] [] [] []]; try reflexivity. congruence.
Qed.

(* ---------------------------------------------------------------- date-times *)
Lemma digit_val_digit n : digit_val (digit n) = Some (n mod 10)%N.
Proof.
  unfold digit. assert (L : (n mod 10 < 10)%N) by (apply N.mod_lt; discriminate).
  revert L. generalize (n mod 10)%N. intros m L.
  assert (In m [0;1;2;3;4;5;6;7;8;9]%N) as I.
  { destruct m as [|p]; [left; reflexivity|].
    do 4 (destruct p as [p|p|]; try (exfalso; lia); try (cbn; tauto)). }
  cbn in I. repeat (destruct I as [<-|I]; [reflexivity|]). destruct I.
Qed.
Lemma read_pad2 n acc k rest : (n < 100)%N ->
  read_digits (2 + k) acc (pad2 n ++ rest)%string = read_digits k (100 * acc + n)%N rest.
Proof.
  intros L. unfold pad2. cbn [append Nat.add read_digits]. rewrite !digit_val_digit. f_equal.
  assert (D : (n / 10 < 10)%N) by (apply N.div_lt_upper_bound; lia).
  rewrite (N.mod_small (n / 10)) by exact D.
  pose proof (N.div_mod n 10 ltac:(discriminate)) as E. lia.
Qed.
Lemma read_pad4 n acc k rest : (n < 10000)%N ->
  read_digits (4 + k) acc (pad4 n ++ rest)%string = read_digits k (10000 * acc + n)%N rest.
Proof.
  intros L. unfold pad4. rewrite str_app_assoc.
  assert (D : (n / 100 < 100)%N) by (apply N.div_lt_upper_bound; lia).
  change (4 + k) with (2 + (2 + k)). rewrite read_pad2 by exact D.
  set (m := (n / 100)%N) in *.
  assert (X : pad2 n = pad2 (n mod 100)).
  { unfold pad2, digit. pose proof (N.div_mod n 100 ltac:(discriminate)) as E.
    assert (M : (n mod 100 < 100)%N) by (apply N.mod_lt; discriminate).
    assert (A : (n mod 10 = (n mod 100) mod 10)%N).
    { rewrite E at 1. replace (100 * (n / 100))%N with ((10 * (n / 100)) * 10)%N by lia.
      rewrite N.add_comm, N.mod_add by discriminate. reflexivity. }
    assert (B : ((n / 10) mod 10 = ((n mod 100) / 10) mod 10)%N).
    { rewrite E at 1. replace (100 * (n / 100))%N with ((10 * (n / 100)) * 10)%N by lia.
      rewrite N.add_comm, N.div_add by discriminate.
      replace (10 * (n / 100))%N with ((n / 100) * 10)%N by lia. rewrite N.mod_add by discriminate. reflexivity. }
    rewrite A, B. reflexivity. }
  rewrite X, read_pad2 by (apply N.mod_lt; discriminate).
  f_equal. pose proof (N.div_mod n 100 ltac:(discriminate)). subst m. lia.
Qed.
Lemma read_char_cons c rest : read_char c (String c rest) = Some rest.
Proof. cbn. rewrite Ascii.eqb_refl. reflexivity. Qed.

Lemma dt_valid_bounds d : dt_valid d = true ->
  (dt_year d < 10000 /\ dt_month d < 100 /\ dt_day d < 100 /\ dt_hour d < 100 /\ dt_min d < 100 /\ dt_sec d < 100)%N.
Proof.
  unfold dt_valid. rewrite !andb_true_iff, !N.leb_le.
  assert (days_in_month (dt_year d) (dt_month d) <= 31)%N.
  { unfold days_in_month. destruct (dt_month d =? 2)%N; [destruct (leap _); lia|]. destruct (_ || _)%bool; lia. }
  lia.
Qed.

Lemma read2 n rest : (n < 100)%N -> read_digits 2 0 (pad2 n ++ rest)%string = Some (n, rest).
Proof. intros L. exact (read_pad2 n 0 0 rest L). Qed.
Lemma read4 n rest : (n < 10000)%N -> read_digits 4 0 (pad4 n ++ rest)%string = Some (n, rest).
Proof. intros L. exact (read_pad4 n 0 0 rest L). Qed.

Lemma dt_round d : dt_valid d = true -> dt_parse (dt_print d) = Some d.
Proof.
  intros V. destruct (dt_valid_bounds d V) as (Y & M & D & H & I & S).
  unfold dt_parse, dt_print.
  rewrite (read4 _ _ Y). cbn [obind append]. rewrite read_char_cons; cbn [obind].
  rewrite (read2 _ _ M). cbn [obind append]. rewrite read_char_cons; cbn [obind].
  rewrite (read2 _ _ D). cbn [obind append]. rewrite read_char_cons; cbn [obind].
  rewrite (read2 _ _ H). cbn [obind append]. rewrite read_char_cons; cbn [obind].
  rewrite (read2 _ _ I). cbn [obind append]. rewrite read_char_cons; cbn [obind].
  rewrite <- (str_app_nil_r (pad2 (dt_sec d))).
  rewrite (read2 _ _ S). cbn [obind].
  destruct d; cbn in *. rewrite V. reflexivity.
Qed.

(* ---------------------------------------------------------------- print / parse *)
(* values in the range of their Rust type, and a float that its printed form denotes *)
Definition attr_in_range (O : oracle) (a : Attribute) : Prop :=
  match a with
  | A_Offset n | A_LineNr n => (n <= u16_max)%N
  | A_DateTime d => dt_valid d = true
  | A_Confidence f => f64_parse O (f64_print O f) = Some f
  | _ => True
  end.

Lemma attr_round O a s :
  attr_in_range O a -> a_display O a = Ok s -> parse_attrib O (ab_as_str (attribtype a)) (Some s) = Ok a.
Proof.
  intros R D. unfold a_display in D. destruct a; cbn [a_as_str a_to_string unwrap] in D; try discriminate; inversion D; subst; clear D;
    unfold parse_attrib; cbn [attribtype ab_as_str];
    match goal with |- context [str_match ?l ?k] => let x := eval cbn [str_match attrib_parsers String.eqb Ascii.eqb Bool.eqb] in (str_match l k) in change (str_match l k) with x end;
    cbv beta iota; cbn [attr_in_range] in R; try reflexivity.
  - destruct t; reflexivity.
  - rewrite R. reflexivity.
  - rewrite dt_round by exact R. reflexivity.
  - destruct b; reflexivity.
  - rewrite u16_round by exact R. reflexivity.
  - rewrite u16_round by exact R. reflexivity.
  - destruct b; reflexivity.
Qed.

Lemma display_total O a : (a = A_Ignore \/ decodable a = true) <-> a_display O a = Panic.
Proof. destruct a; cbn; split; intros H; try (destruct H; discriminate); try discriminate; auto. Qed.
Lemma display_ok O a : a <> A_Ignore -> decodable a = false -> exists s, a_display O a = Ok s.
Proof. intros N D. destruct a; cbn in *; try congruence; eauto. Qed.

(* ---------------------------------------------------------------- set / del *)
Lemma find_attrib_some l t a : find_attrib l t = Some a -> In a l /\ attribtype a = t.
Proof.
  induction l as [|x l IH]; cbn; [discriminate|]. destruct (ab_eqb_spec (attribtype x) t) as [E|E]; intros H.
  - inversion H; subst; auto.
  - destruct (IH H); auto.
Qed.
Definition attr_count (t : AttribType) (l : list Attribute) : nat :=
  length (filter (fun a => ab_eqb (attribtype a) t) l).

Lemma del_attrib_spec l t :
  match del_attrib l t with
  | (l', Some a) => exists l1 l2, l = l1 ++ a :: l2 /\ l' = l1 ++ l2 /\ attribtype a = t /\
                                  (forall b, In b l1 -> attribtype b <> t)
  | (l', None) => l' = l /\ forall b, In b l -> attribtype b <> t
  end.
Proof.
  unfold del_attrib. destruct (position _ l) as [i|] eqn:P.
  - destruct (position_split _ _ _ P) as (l1 & x & l2 & E & L & F & B & R). subst l.
    replace (nth_error (l1 ++ x :: l2) i) with (Some x)
      by (subst i; rewrite nth_error_app2, Nat.sub_diag by lia; reflexivity).
    exists l1, l2. rewrite R. split; [reflexivity|]. split; [reflexivity|].
    split; [destruct (ab_eqb_spec (attribtype x) t); congruence|].
    intros b I N. subst t. assert (existsb (fun a => ab_eqb (attribtype a) (attribtype b)) l1 = true); [|congruence].
    apply existsb_exists. exists b. split; [exact I|apply ab_eqb_refl].
  - split; [reflexivity|]. intros b I N. apply (position_none _ _ P) in I. subst t. rewrite ab_eqb_refl in I. discriminate.
Qed.

(* at most one attribute of each type *)
Definition unique_types (l : list Attribute) : Prop := NoDup (map attribtype l).
