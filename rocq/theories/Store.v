(* Model of /repo/src/store.rs (and the item vectors of elementstore.rs / metadata.rs).
   The trait Store<T,Key> has three instances (elements, declarations, processors); the trait
   StringStore<Key> has two (classes and subsets). *)
From Coq Require Import String List Bool Arith NArith.
From Verif Require Import Base.
Import ListNotations.
Open Scope string_scope.

(* elementstore.rs:13-15, metadata.rs:240-243, 320-322: items and index *)
Record store (T : Type) : Type := mkStore {
  st_items : list (option T);
  st_index : smap nat }.
Arguments mkStore {T} _ _.
Arguments st_items {T} _.
Arguments st_index {T} _.

Definition st_empty {T} : store T := mkStore [] [].

(* store.rs:106-112  Store::get *)
Definition st_get {T} (s : store T) (k : nat) : option T :=
  match nth_error (st_items s) k with
  | Some o => o
  | None => None
  end.

(* store.rs:115-121  Store::get_mut followed by an assignment through the reference *)
Definition st_set {T} (s : store T) (k : nat) (x : T) : store T :=
  mkStore (set_nth k (Some x) (st_items s)) (st_index s).

(* store.rs:124-126  Store::id_to_key *)
Definition st_id_to_key {T} (s : store T) (id : string) : option nat := smap_get (st_index s) id.

(* store.rs:130-134, 138-142  get_by_id / get_mut_by_id: the inner Option is unwrapped *)
Definition st_get_by_id {T} (s : store T) (id : string) : res (option T) :=
  match st_id_to_key s id with
  | None => Ok None
  | Some k => match st_get s k with
              | Some x => Ok (Some x)
              | None => Panic
              end
  end.

(* store.rs:85-94  Store::get_key *)
Definition st_get_key {T} (maybe_id : T -> option string) (s : store T) (x : T) : option nat :=
  match maybe_id x with
  | Some id => smap_get (st_index s) id
  | None => None
  end.

(* store.rs:57-81  Store::add, after the item was encoded. [maxkey] is the largest value of the key type
   (Key::try_from fails above it); [maybe_id] and [assign_key] are the Storable methods. *)
Definition st_add {T} (maxkey : N) (maybe_id : T -> option string) (assign_key : nat -> T -> T)
    (s : store T) (x : T) : store T * res nat :=
  match st_get_key maybe_id s x with
  | Some k => (s, Ok k)
  | None =>
      let n := List.length (st_items s) in
      if (N.of_nat n <=? maxkey)%N then
        (mkStore (st_items s ++ [Some (assign_key n x)])
                 (match maybe_id x with
                  | Some id => smap_insert id n (st_index s)
                  | None => st_index s
                  end), Ok n)
      else (s, Err EInternal)
  end.

(* store.rs:158-170  StringStore::add; metadata.rs:181-184, 212-215 ClassStore / SubsetStore *)
Definition sstore := store string.
Definition ss_add (maxkey : N) (s : sstore) (x : string) : sstore * res nat :=
  match smap_get (st_index s) x with
  | Some k => (s, Ok k)
  | None =>
      let n := List.length (st_items s) in
      if (N.of_nat n <=? maxkey)%N then
        (mkStore (st_items s ++ [Some x]) (smap_insert x n (st_index s)), Ok n)
      else (s, Err EInternal)
  end.
(* store.rs:173-175  StringStore::get_key *)
Definition ss_get_key (s : sstore) (x : string) : option nat := smap_get (st_index s) x.
