(* Basic data used by the model: results, string maps, list updates, numbers in
   decimal, blank strings, date-times. No proofs here. *)
From Coq Require Import String Ascii List Bool Arith NArith DecimalString.
Import ListNotations.
Open Scope string_scope.

(* error.rs:9-32  enum FoliaError. Only the variant is kept, the message is dropped.
   IoError and IndexError never arise in the modelled code. *)
Inductive ferr : Set :=
  | EXml | EParse | ESerialisation | EIncomplete | EValidation | EInternal
  | EEncode | EKey | EQuery | EType | ENoText.

(* Result<A,FoliaError>, plus: [Panic] = unwrap/expect/unreachable! failed;
   [OutOfFuel] = the fuel of a possibly non-terminating function was used up. *)
Inductive res (A : Type) : Type :=
  | Ok (a : A)
  | Err (e : ferr)
  | Panic
  | OutOfFuel.
Arguments Ok {A} _.
Arguments Err {A} _.
Arguments Panic {A}.
Arguments OutOfFuel {A}.

(* the ? operator / match on Result for read-only code *)
Definition rbind {A B} (r : res A) (f : A -> res B) : res B :=
  match r with
  | Ok a => f a
  | Err e => Err e
  | Panic => Panic
  | OutOfFuel => OutOfFuel
  end.

(* the ? operator for code that also mutates a state S *)
Definition sbind {S A B} (r : S * res A) (f : S -> A -> S * res B) : S * res B :=
  match r with
  | (s, Ok a) => f s a
  | (s, Err e) => (s, Err e)
  | (s, Panic) => (s, Panic)
  | (s, OutOfFuel) => (s, OutOfFuel)
  end.

Notation "'let?' x := r 'in' k" := (rbind r (fun x => k))
  (at level 200, x name, r at level 100, k at level 200).
Notation "'let!' s , x := r 'in' k" := (sbind r (fun s x => k))
  (at level 200, s name, x pattern, r at level 100, k at level 200).

(* r.map_err(..): only the variant of the error changes *)
Definition map_err {S A} (e : ferr) (r : S * res A) : S * res A :=
  match r with
  | (s, Err _) => (s, Err e)
  | _ => r
  end.

(* Option::ok_or *)
Definition ok_or {A} (o : option A) (e : ferr) : res A :=
  match o with Some a => Ok a | None => Err e end.

(* Result::unwrap / expect, Option::unwrap / expect *)
Definition unwrap {A} (r : res A) : res A :=
  match r with Err _ => Panic | _ => r end.
Definition expect {A} (o : option A) : res A :=
  match o with Some a => Ok a | None => Panic end.

(* && on values whose computation may panic: the right side counts only if the left is true *)
Definition rand (a b : res bool) : res bool :=
  match a with Ok true => b | _ => a end.
Definition ror (a b : res bool) : res bool :=
  match a with Ok false => b | _ => a end.

(* ------------------------------------------------------------------ *)
(* std::collections::HashMap<String,V> *)
Definition smap (V : Type) : Type := list (string * V).

Fixpoint smap_get {V} (m : smap V) (k : string) : option V :=
  match m with
  | [] => None
  | (k', v) :: r => if String.eqb k k' then Some v else smap_get r k
  end.

(* HashMap::insert: replaces the value of an equal key *)
Definition smap_insert {V} (k : string) (v : V) (m : smap V) : smap V :=
  (k, v) :: filter (fun p => negb (String.eqb k (fst p))) m.

(* ------------------------------------------------------------------ *)
(* Vec *)

(* v[n] = x, no effect out of range *)
Fixpoint set_nth {A} (n : nat) (x : A) (l : list A) : list A :=
  match l, n with
  | [], _ => []
  | _ :: r, 0 => x :: r
  | y :: r, S n' => y :: set_nth n' x r
  end.

(* Vec::remove(n), no effect out of range *)
Fixpoint remove_nth {A} (n : nat) (l : list A) : list A :=
  match l, n with
  | [], _ => []
  | _ :: r, 0 => r
  | y :: r, S n' => y :: remove_nth n' r
  end.

(* Iterator::position *)
Fixpoint position {A} (f : A -> bool) (l : list A) : option nat :=
  match l with
  | [] => None
  | x :: r => if f x then Some 0 else option_map S (position f r)
  end.

Definition mem_nat (x : nat) (l : list nat) : bool := existsb (Nat.eqb x) l.

Definition opt_nat_eqb (a b : option nat) : bool :=
  match a, b with
  | Some x, Some y => Nat.eqb x y
  | None, None => true
  | _, _ => false
  end.

(* ------------------------------------------------------------------ *)
(* str::trim(s) == "" : only Unicode White_Space, on UTF-8 bytes *)
Definition ascii_ws (n : nat) : bool := ((9 <=? n) && (n <=? 13) || (n =? 32))%nat.
Definition ws2 (a b : nat) : bool := ((a =? 194) && ((b =? 133) || (b =? 160)))%nat.
Definition ws3 (a b c : nat) : bool :=
  ((a =? 225) && (b =? 154) && (c =? 128) ||
  (a =? 226) && (b =? 128) && ((128 <=? c) && (c <=? 138) || (c =? 168) || (c =? 169) || (c =? 175)) ||
  (a =? 226) && (b =? 129) && (c =? 159) ||
  (a =? 227) && (b =? 128) && (c =? 128))%nat.

Fixpoint is_blank (s : string) : bool :=
  match s with
  | EmptyString => true
  | String a r =>
      if ascii_ws (nat_of_ascii a) then is_blank r
      else match r with
           | EmptyString => false
           | String b r1 =>
               if ws2 (nat_of_ascii a) (nat_of_ascii b) then is_blank r1
               else match r1 with
                    | EmptyString => false
                    | String c r2 =>
                        if ws3 (nat_of_ascii a) (nat_of_ascii b) (nat_of_ascii c) then is_blank r2
                        else false
                    end
           end
  end.

Definition str_is_empty (s : string) : bool :=
  match s with EmptyString => true | _ => false end.

(* the string of one newline *)
Definition nl : string := String (ascii_of_nat 10) EmptyString.

Fixpoint str_contains_char (c : ascii) (s : string) : bool :=
  match s with
  | EmptyString => false
  | String a r => Ascii.eqb a c || str_contains_char c r
  end.

Definition opt_str_eqb (a b : option string) : bool :=
  match a, b with
  | Some x, Some y => String.eqb x y
  | None, None => true
  | _, _ => false
  end.

(* ------------------------------------------------------------------ *)
(* numbers *)
Definition u16_max : N := 65535.
Definition u32_max : N := 4294967295.

(* u16::to_string *)
Definition dec_of_N (n : N) : string := NilEmpty.string_of_uint (N.to_uint n).

(* u16::from_str: optional '+', then at least one decimal digit, value at most 65535 *)
Definition u16_digits (s : string) : option N :=
  match s with
  | EmptyString => None
  | _ => match NilEmpty.uint_of_string s with
         | Some u => let n := N.of_uint u in if (n <=? u16_max)%N then Some n else None
         | None => None
         end
  end.
Definition u16_from_str (s : string) : option N :=
  match s with
  | String "+"%char r => u16_digits r
  | _ => u16_digits s
  end.

(* ------------------------------------------------------------------ *)
(* chrono::NaiveDateTime. Simplification: year 0..9999, no fraction of a second
   (the format used by the code drops it). *)
Record datetime : Set := mkDT {
  dt_year : N; dt_month : N; dt_day : N; dt_hour : N; dt_min : N; dt_sec : N }.

Definition leap (y : N) : bool :=
  ((y mod 4 =? 0) && negb (y mod 100 =? 0) || (y mod 400 =? 0))%N.
Definition days_in_month (y m : N) : N :=
  if (m =? 2)%N then (if leap y then 29 else 28)%N
  else if ((m =? 4) || (m =? 6) || (m =? 9) || (m =? 11))%N then 30%N else 31%N.
Definition dt_valid (d : datetime) : bool :=
  ((dt_year d <=? 9999) && (1 <=? dt_month d) && (dt_month d <=? 12) &&
   (1 <=? dt_day d) && (dt_day d <=? days_in_month (dt_year d) (dt_month d)) &&
   (dt_hour d <=? 23) && (dt_min d <=? 59) && (dt_sec d <=? 59))%N.

Definition digit (n : N) : ascii := ascii_of_N (48 + n mod 10).
Definition pad2 (n : N) : string := String (digit (n / 10)) (String (digit n) EmptyString).
Definition pad4 (n : N) : string := pad2 (n / 100) ++ pad2 n.

(* format("%Y-%m-%dT%H:%M:%S") *)
Definition dt_print (d : datetime) : string :=
  pad4 (dt_year d) ++ "-" ++ pad2 (dt_month d) ++ "-" ++ pad2 (dt_day d) ++ "T" ++
  pad2 (dt_hour d) ++ ":" ++ pad2 (dt_min d) ++ ":" ++ pad2 (dt_sec d).

Definition digit_val (a : ascii) : option N :=
  let n := N_of_ascii a in
  if ((48 <=? n) && (n <=? 57))%N then Some (n - 48)%N else None.

(* reads exactly k digits *)
Fixpoint read_digits (k : nat) (acc : N) (s : string) : option (N * string) :=
  match k with
  | 0 => Some (acc, s)
  | S k' => match s with
            | EmptyString => None
            | String a r => match digit_val a with
                            | Some v => read_digits k' (10 * acc + v)%N r
                            | None => None
                            end
            end
  end.
Definition read_char (c : ascii) (s : string) : option string :=
  match s with
  | String a r => if Ascii.eqb a c then Some r else None
  | EmptyString => None
  end.

Definition obind {A B} (o : option A) (f : A -> option B) : option B :=
  match o with Some a => f a | None => None end.

(* NaiveDateTime::parse_from_str(s, "%Y-%m-%dT%H:%M:%S"). Simplification: only the fixed-width
   form is accepted; chrono also accepts fewer digits, leading blanks and a leap second. *)
Definition dt_parse (s : string) : option datetime :=
  obind (read_digits 4 0 s) (fun '(y, s) =>
  obind (read_char "-" s) (fun s =>
  obind (read_digits 2 0 s) (fun '(mo, s) =>
  obind (read_char "-" s) (fun s =>
  obind (read_digits 2 0 s) (fun '(d, s) =>
  obind (read_char "T" s) (fun s =>
  obind (read_digits 2 0 s) (fun '(h, s) =>
  obind (read_char ":" s) (fun s =>
  obind (read_digits 2 0 s) (fun '(mi, s) =>
  obind (read_char ":" s) (fun s =>
  obind (read_digits 2 0 s) (fun '(se, s) =>
    match s with
    | EmptyString => let r := mkDT y mo d h mi se in if dt_valid r then Some r else None
    | _ => None
    end))))))))))).

(* parse_from_str(s, "%Y-%m-%dT%H:%M:$S") as written in parser.rs:490,496. The format ends in the
   literal characters "$S", so the text must too; the seconds are then absent and default to 0. *)
Definition dt_parse_typo (s : string) : option datetime :=
  obind (read_digits 4 0 s) (fun '(y, s) =>
  obind (read_char "-" s) (fun s =>
  obind (read_digits 2 0 s) (fun '(mo, s) =>
  obind (read_char "-" s) (fun s =>
  obind (read_digits 2 0 s) (fun '(d, s) =>
  obind (read_char "T" s) (fun s =>
  obind (read_digits 2 0 s) (fun '(h, s) =>
  obind (read_char ":" s) (fun s =>
  obind (read_digits 2 0 s) (fun '(mi, s) =>
  obind (read_char ":" s) (fun s =>
  obind (read_char "$" s) (fun s =>
  obind (read_char "S" s) (fun s =>
    match s with
    | EmptyString => let r := mkDT y mo d h mi 0 in if dt_valid r then Some r else None
    | _ => None
    end)))))))))))).

(* f64: opaque 64-bit pattern; from_str / to_string of the standard library are parameters *)
Record oracle : Type := mkOracle {
  f64_parse : string -> option N;
  f64_print : N -> string }.
