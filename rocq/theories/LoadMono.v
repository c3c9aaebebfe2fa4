(* What loading returns does not depend on the fuel, if it returns at all. *)
From Coq Require Import String Ascii List Bool Arith NArith Lia.
From Verif Require Import Base BaseFacts Types TypesFacts SpecTable Attrib AttribFacts Element Store StoreFacts Metadata Document Select DocOps Xml Parser Serialiser History Spec
  FrameFacts InvFacts DocFacts SelSpec SelectFacts Returns XmlText.
Import ListNotations.
Open Scope string_scope.
Open Scope list_scope.

Definition same_run {A} (r r' : document * res A) : Prop := snd r = OutOfFuel \/ r' = r.
Lemma run_refl {A} (r : document * res A) : same_run r r.
Proof. right. reflexivity. Qed.
Lemma run_bind {A B} (r r' : document * res A) (f f' : document -> A -> document * res B) : same_run r r' -> (forall d a, same_run (f d a) (f' d a)) -> same_run (sbind r f) (sbind r' f').
Proof. intros [E| ->] H; [left; destruct r as [d [a|x| |]]; try discriminate; reflexivity|]. destruct r as [d [a|x| |]]; cbn [sbind]; try apply run_refl. apply H. Qed.
Lemma post_add_mono n m d k st : n <= m -> same_run (post_add n d k (Some st)) (post_add m d k (Some st)).
Proof.
  intros L. unfold post_add. destruct (get_elementdata d k) as [e|]; [|apply run_refl].
  assert (LY : forall t, same_run (if group_contains EG_Layer t && negb (e_has_attrib e AB_SET) then let! d, dk := (d, layer_declaration n d e) in match dk with Some dk => (upd_element d k (fun x => e_with_attribs x [A_DeclarationRef dk]), Ok tt) | None => (d, Ok tt) end else (d, Ok tt))
     (if group_contains EG_Layer t && negb (e_has_attrib e AB_SET) then let! d, dk := (d, layer_declaration m d e) in match dk with Some dk => (upd_element d k (fun x => e_with_attribs x [A_DeclarationRef dk]), Ok tt) | None => (d, Ok tt) end else (d, Ok tt))).
  { intros t. destruct (_ && _); [|apply run_refl]. apply run_bind; [|intros; apply run_refl]. unfold layer_declaration. destruct (from_query d layer_query) as [q|x| |]; cbn [rbind]; try apply run_refl. destruct (expect (e_key e)) as [own|x| |]; cbn [rbind]; try apply run_refl. match goal with |- same_run (d, sel_find n d ?p ?st ?f) _ => pose proof (find_mono d p f n st) as Q; destruct (sel_find n d p st f) eqn:E end;
    [right|right|right|left; reflexivity]; f_equal; apply Q; try exact L; discriminate. }
  destruct (e_type e); solve [apply LY|apply run_refl].
Qed.
Lemma step_mono n m O d st ev : n <= m -> same_run (elements_step n O d st ev) (elements_step m O d st ev).
Proof.
  intros L. unfold elements_step. destruct ev as [ns name a|ns name a|ns name|[t|]|[t|]|[t|]| |]; try apply run_refl; destruct ns; try apply run_refl.
  - apply run_bind; [apply run_refl|]. intros d1 x. apply run_bind; [apply run_refl|]. intros d2 key. apply run_bind; [apply run_refl|]. intros d3 u. apply run_bind; [apply run_refl|]. intros d4 u2.
    apply run_bind; [apply post_add_mono, L|]. intros; apply run_refl.
  - destruct st as [|key [|top rest]]; try apply run_refl. apply run_bind; [apply post_add_mono, L|]. intros; apply run_refl.
Qed.
Lemma loop_mono n m O l : n <= m -> forall d st, same_run (parse_elements_loop n O d st l) (parse_elements_loop m O d st l).
Proof.
  intros L. induction l as [|ev l IH]; intros d st; cbn [parse_elements_loop]; [apply run_refl|]. apply run_bind; [apply step_mono, L|]. intros d1 [st1|]; [apply IH|apply run_refl].
Qed.
Lemma parse_mono n m O p l : n <= m -> parse_document n O p l <> OutOfFuel -> parse_document m O p l = parse_document n O p l.
Proof.
  intros L. unfold parse_document. destruct (parse_root _ l) as [[d1 l1]|x| |]; cbn [rbind]; try reflexivity. destruct (parse_metadata d1 ms_init l1) as [d2 r2]. destruct r2 as [l2|x| |]; cbn [rbind]; try reflexivity.
  destruct (parse_body O l2) as [[[b|] l3]|x| |]; cbn [rbind]; try reflexivity.
  match goal with |- (let (d, r) := ?a in _) <> _ -> (let (d, r) := ?b in _) = _ => assert (Q : same_run a b) end.
  { apply run_bind; [apply run_refl|]. intros d3 k. apply run_bind; [apply run_refl|]. intros d4 u. unfold parse_elements. destruct (st_items (doc_elements d4)); [apply run_refl|]. apply loop_mono, L. }
  destruct Q as [Q|Q]; [|rewrite Q; reflexivity]. match type of Q with snd ?a = _ => destruct a as [d5 r5] end. cbn [snd] in Q. subst r5. intros H. contradiction H. reflexivity.
Qed.
(* two runs that return, return the same *)
Lemma parse_once n m O p l : parse_document n O p l <> OutOfFuel -> parse_document m O p l <> OutOfFuel -> parse_document m O p l = parse_document n O p l.
Proof. intros A B. destruct (Nat.le_ge_cases n m) as [L|L]; [apply parse_mono; assumption|]. symmetry. apply parse_mono; assumption. Qed.
Lemma bytes_mono n m O p s : n <= m -> doc_from_bytes n O p s <> OutOfFuel -> doc_from_bytes m O p s = doc_from_bytes n O p s.
Proof. apply parse_mono. Qed.
