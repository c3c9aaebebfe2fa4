(* Adding elements comes to an end: with enough fuel the result no longer depends on the fuel *)
From Coq Require Import String List Bool Arith NArith Lia.
From Verif Require Import Base Types SpecTable Attrib Element Store Metadata Document Select DocOps Xml Parser History BaseFacts TypesFacts StoreFacts Spec
  FrameFacts InvFacts DocFacts StoreThms InternFacts EncodeFacts LinkFacts TreeFacts ForestFacts SelSpec SelectFacts PropsEncode PropsLinks PropsSelect NoPanic.
Import ListNotations.
Open Scope list_scope.

Definition settles {A} (f : nat -> res A) : Prop := exists n v, v <> OutOfFuel /\ forall fuel, n <= fuel -> f fuel = v.
Definition settlesS {A} (f : nat -> document * res A) : Prop := exists n d v, v <> OutOfFuel /\ forall fuel, n <= fuel -> f fuel = (d, v).
Lemma settles_const {A} (v : res A) : v <> OutOfFuel -> settles (fun _ => v).
Proof. intros H. exists 0, v. auto. Qed.
Lemma settlesS_const {A} d (v : res A) : v <> OutOfFuel -> settlesS (fun _ => (d, v)).
Proof. intros H. exists 0, d, v. auto. Qed.
Lemma settles_bind {A B} (f : nat -> res A) (g : nat -> A -> res B) : settles f -> (forall a n, (forall fuel, n <= fuel -> f fuel = Ok a) -> settles (fun fuel => g fuel a)) ->
  settles (fun fuel => rbind (f fuel) (g fuel)).
Proof.
  intros (n & v & V & H) G. destruct v as [a|x| |]; [|exists n, (Err x); split; [discriminate|]; intros fuel L; rewrite (H fuel L); reflexivity|
    exists n, Panic; split; [discriminate|]; intros fuel L; rewrite (H fuel L); reflexivity|congruence].
  destruct (G a n H) as (m & w & W & HW). exists (max n m), w. split; [exact W|]. intros fuel L. rewrite (H fuel) by lia. cbn. apply HW. lia.
Qed.
Lemma settlesS_bind {A B} (f : nat -> document * res A) (g : nat -> document -> A -> document * res B) : settlesS f ->
  (forall d a n, (forall fuel, n <= fuel -> f fuel = (d, Ok a)) -> settlesS (fun fuel => g fuel d a)) -> settlesS (fun fuel => sbind (f fuel) (g fuel)).
Proof.
  intros (n & d & v & V & H) G. destruct v as [a|x| |]; [|exists n, d, (Err x); split; [discriminate|]; intros fuel L; rewrite (H fuel L); reflexivity|
    exists n, d, Panic; split; [discriminate|]; intros fuel L; rewrite (H fuel L); reflexivity|congruence].
  destruct (G d a n H) as (m & d2 & w & W & HW). exists (max n m), d2, w. split; [exact W|]. intros fuel L. rewrite (H fuel) by lia. cbn. apply HW. lia.
Qed.
Lemma settlesS_pure {A B} d (f : nat -> res A) (g : nat -> document -> A -> document * res B) : settles f ->
  (forall a n, (forall fuel, n <= fuel -> f fuel = Ok a) -> settlesS (fun fuel => g fuel d a)) -> settlesS (fun fuel => sbind (d, f fuel) (g fuel)).
Proof.
  intros (n & v & V & H) G. apply settlesS_bind; [exists n, d, v; split; [exact V|]; intros fuel L; rewrite (H fuel L); reflexivity|].
  intros d1 a m K. assert (E : d1 = d) by (specialize (K m (Nat.le_refl m)); congruence). subst d1. apply (G a m). intros fuel L. specialize (K fuel L). congruence.
Qed.
Lemma settlesS_map_err {A} e (f : nat -> document * res A) : settlesS f -> settlesS (fun fuel => map_err e (f fuel)).
Proof.
  intros (n & d & v & V & H). destruct v as [a|x| |]; [exists n, d, (Ok a)|exists n, d, (Err e)|exists n, d, Panic|congruence];
    (split; [discriminate|]); intros fuel L; rewrite (H fuel L); reflexivity.
Qed.
Lemma at_enough {A} (f : nat -> document * res A) d a n : (forall fuel, n <= fuel -> f fuel = (d, Ok a)) -> f n = (d, Ok a).
Proof. intros H. apply H. lia. Qed.

(* going up and going down both end *)
Record fin (d : document) : Prop := {
  fin_up : acyc (sh d);
  fin_down : forall k, Acc (fun c p => In c (skids (sh d) p)) k;
  fin_kids : forall p c, In c (skids (sh d) p) -> sh d c <> None }.
Lemma acyc_acyclic d : acyc (sh d) -> acyclic d.
Proof.
  intros A. assert (X : forall k, Acc (fun p c => spar (sh d) c = Some p) k -> forall a, ancestor d a k -> Acc (fun p c => spar (sh d) c = Some p) a).
  { intros k AK a AN. induction AN as [x P|x b P AN IH]; [eapply Acc_inv; [exact AK|]; rewrite sh_parent; exact P|]. apply IH. eapply Acc_inv; [exact AK|]. rewrite sh_parent. exact P. }
  intros k. induction (A k) as [k _ IH]. intros AN. destruct (anc_inv _ _ _ AN) as (p & P & Q). rewrite <- sh_parent in P. apply (IH p P).
  destruct Q as [->|Q]; [exact AN|]. eapply anc_trans; [|exact Q]. rewrite sh_parent in P. apply anc_parent in P. exact P.
Qed.
Lemma walk_down_acc d : (forall n k w, walk d RAlways n k w -> Acc (fun c p => In c (skids (sh d) p)) k) /\
  (forall n k t i l w, walk_data d RAlways n k t i l w -> forall c, In (DElement c) l -> Acc (fun c p => In c (skids (sh d) p)) c).
Proof.
  apply walk_both.
  - intros n k e l G _ IH. constructor. intros c I. apply IH. rewrite sh_kids in I. apply (child_in d k e c G), I.
  - intros n k t i c [].
  - intros n k t i c rest below l _ _ A _ IH x [Q|Q]; [inversion Q; subst; exact A|apply IH, Q].
  - intros n k t i x rest l NE _ IH c [Q|Q]; [exfalso; eapply NE; [exact I|exact Q]|apply IH, Q].
Qed.
Lemma fin_forest d : forest d -> fin d.
Proof.
  intros [L A D B]. pose proof (proj2 (consistent_linked d) L) as C. split; [exact A| |apply L].
  intros k. destruct (get_elementdata d k) as [e|] eqn:G.
  - destruct (walk_exists d RAlways C (acyc_acyclic d A) k) with (n := 0) as (w & W); [rewrite G; discriminate|]. eapply (proj1 (walk_down_acc d)), W.
  - constructor. intros c I. rewrite sh_kids in I. unfold children_of in I. rewrite G in I. destruct I.
Qed.
Lemma fin_same d d' : same_sh d d' -> fin d -> fin d'.
Proof.
  intros (A & _ & _) [U D K]. assert (KE : forall p, skids (sh d') p = skids (sh d) p) by (intros p; unfold skids; rewrite A; reflexivity). split.
  - eapply acyc_ext; [|exact U]. intros k. unfold spar. rewrite A. reflexivity.
  - intros k. induction (D k) as [k _ IH]. constructor. intros c I. rewrite KE in I. apply IH, I.
  - intros p c I. rewrite KE in I. rewrite A. eapply K, I.
Qed.
Lemma fin_new d d1 k s : fin d -> sh d k = None -> (forall j, sh d1 j = if Nat.eqb j k then Some s else sh d j) -> s_parent s = None ->
  (forall c, In c (child_keys (s_content s)) -> sh d c <> None) -> fin d1.
Proof.
  intros [U D K] N E P C. split.
  - eapply acyc_new; eassumption.
  - assert (OLD : forall j, sh d j <> None -> Acc (fun c p => In c (skids (sh d1) p)) j).
    { intros j. induction (D j) as [j _ IH]. intros J. constructor. intros c I. unfold skids in I. rewrite E in I. destruct (Nat.eqb_spec j k) as [->|NE]; [congruence|].
      apply IH; [exact I|]. eapply K, I. }
    intros j. destruct (sh d j) as [sj|] eqn:SJ; [apply OLD; congruence|]. constructor. intros c I. unfold skids in I. rewrite E in I. rewrite SJ in I.
    destruct (Nat.eqb_spec j k) as [->|NE]; [|destruct I]. apply OLD, C, I.
  - intros p c I. unfold skids in I. rewrite E in I |- *. destruct (Nat.eqb_spec c k) as [->|NC]; [discriminate|]. destruct (Nat.eqb_spec p k) as [->|NP]; [apply C, I|eapply K, I].
Qed.
Lemma fin_adopt d d1 q ks : fin d -> (forall j, sh d1 j = adopt (sh d) q ks j) -> ~ In q ks -> spar (sh d) q = None -> fin d1.
Proof.
  intros [U D K] E NQ PQ. assert (KE : forall p, skids (sh d1) p = skids (sh d) p) by (intros p; eapply adopt_kids, E). split.
  - eapply acyc_adopt; eassumption.
  - intros k. induction (D k) as [k _ IH]. constructor. intros c I. rewrite KE in I. apply IH, I.
  - intros p c I. rewrite KE in I. rewrite E. unfold adopt. pose proof (K _ _ I) as Q. destruct (mem_nat c ks); [|exact Q]. destruct (sh d c); [discriminate|congruence].
Qed.

(* ---------------------------------------------------------------- ancestors and selections *)
Lemma anc_next_settles d s k : fin d -> settles (fun fuel => anc_next fuel d s k).
Proof.
  intros F. induction (fin_up d F k) as [k _ IH].
  assert (X : settles (fun f => match get_elementdata d k with
      | None => Ok None
      | Some e => match e_parent e with
          | None => Ok None
          | Some p => match matches s d (DElement p) with
              | Ok true => match get_elementdata d p with Some _ => Ok (Some p) | None => Panic end
              | Ok false => match get_elementdata d p with Some _ => anc_next f d s p | None => Panic end
              | _ => Panic end end end)).
  { destruct (get_elementdata d k) as [e|] eqn:G; [|apply settles_const; discriminate]. destruct (e_parent e) as [p|] eqn:P; [|apply settles_const; discriminate].
    destruct (matches s d (DElement p)) as [[]| | |]; try (apply settles_const; discriminate); (destruct (get_elementdata d p); [|apply settles_const; discriminate]);
      [apply settles_const; discriminate|]. apply IH. unfold spar, sh. rewrite G. exact P. }
  destruct X as (n & v & V & H). exists (S n), v. split; [exact V|]. intros [|fuel] L; [lia|]. apply (H fuel). lia.
Qed.
Lemma ancestors_settles d s k : fin d -> settles (fun fuel => ancestors fuel d s k).
Proof.
  intros F. induction (fin_up d F k) as [k _ IH].
  assert (X : settles (fun f => match get_elementdata d k with
      | None => Ok []
      | Some e => match e_parent e with
          | None => Ok []
          | Some p => match matches s d (DElement p) with
              | Ok true => match get_elementdata d p with Some _ => let? l := ancestors f d s p in Ok (p :: l) | None => Panic end
              | Ok false => match get_elementdata d p with Some _ => ancestors f d s p | None => Panic end
              | _ => Panic end end end)).
  { destruct (get_elementdata d k) as [e|] eqn:G; [|apply settles_const; discriminate]. destruct (e_parent e) as [p|] eqn:P; [|apply settles_const; discriminate].
    assert (Q : settles (fun fuel => ancestors fuel d s p)) by (apply IH; unfold spar, sh; rewrite G; exact P).
    destruct (matches s d (DElement p)) as [[]| | |]; try (apply settles_const; discriminate); (destruct (get_elementdata d p); [|apply settles_const; discriminate]); [|exact Q].
    apply settles_bind; [exact Q|]. intros l n _. apply settles_const. discriminate. }
  destruct X as (n & v & V & H). exists (S n), v. split; [exact V|]. intros [|fuel] L; [lia|]. apply (H fuel). lia.
Qed.
Lemma fin_walk d r : fin d -> forall k, get_elementdata d k <> None -> forall n, exists w, walk d r n k w.
Proof.
  intros F k. induction (fin_down d F k) as [k _ IH]. intros HK n. destruct (get_elementdata d k) as [e|] eqn:G; [|congruence].
  assert (Y : forall l j, (forall c, In (DElement c) l -> In (DElement c) (e_data e)) -> exists w, walk_data d r n k (e_type e) j l w).
  { induction l as [|y l IHl]; intros j SUB; [exists []; constructor|]. destruct (IHl (S j)) as (w & W); [intros c I; apply SUB; right; exact I|].
    destruct (rec_eval r (e_type e)) eqn:RE.
    - apply rec_eval_spec in RE. destruct y as [s|c|s|c|y]; try (eexists; apply walk_stay; [intros _ c'; discriminate|exact W]).
      assert (I : In c (skids (sh d) k)) by (rewrite sh_kids; apply (child_in d k e c G), SUB; left; reflexivity).
      assert (HC : get_elementdata d c <> None) by (pose proof (fin_kids d F _ _ I) as Q; unfold sh in Q; destruct (get_elementdata d c); [discriminate|destruct (Q eq_refl)]).
      destruct (IH c I HC (S n)) as (b & B). eexists. apply walk_down; eassumption.
    - eexists. apply walk_stay; [|exact W]. intros D. apply rec_eval_spec in D. congruence. }
  destruct (Y (e_data e) 0) as (w & W); [auto|]. exists w. econstructor; eassumption.
Qed.
Lemma find_no_fuel d p f : (forall k e, f k e <> OutOfFuel) -> forall fuel st, sel_collect fuel d p st <> OutOfFuel -> sel_find fuel d p st f <> OutOfFuel.
Proof.
  intros FN. induction fuel as [|fuel IH]; intros st H; [destruct (H eq_refl)|]. cbn [sel_collect sel_find] in *. destruct (sel_step d p st) as [i st'|st'|st'|]; try discriminate; [|apply IH, H].
  assert (Q : sel_collect fuel d p st' <> OutOfFuel) by (intros Q; rewrite Q in H; apply H; reflexivity).
  destruct (si_data i) as [t|k|t|k|e]; try (apply IH, Q); (destruct (get_elementdata d k) as [e|]; [|discriminate]); specialize (FN k e);
    (destruct (f k e) as [[x|]| | |]; cbn [rbind]; try discriminate; [apply IH, Q|exact FN]).
Qed.
Lemma find_mono d p f : forall fuel st, sel_find fuel d p st f <> OutOfFuel -> forall fuel', fuel <= fuel' -> sel_find fuel' d p st f = sel_find fuel d p st f.
Proof.
  induction fuel as [|n IH]; intros st H fuel' L; [destruct (H eq_refl)|]. destruct fuel' as [|f']; [lia|]. cbn in *. destruct (sel_step d p st) as [i st'|st'|st'|]; try reflexivity.
  - destruct (si_data i) as [t|k|t|k|e]; try (apply IH; [exact H|lia]); (destruct (get_elementdata d k) as [e|]; [|reflexivity]);
      (destruct (f k e) as [[x|]| | |]; cbn [rbind] in *; try reflexivity; apply IH; [exact H|lia]).
  - apply IH; [exact H|lia].
Qed.
Lemma first_no_fuel d p : forall fuel st, sel_collect fuel d p st <> OutOfFuel -> sel_first fuel d p st <> OutOfFuel.
Proof.
  induction fuel as [|fuel IH]; intros st H; [destruct (H eq_refl)|]. cbn [sel_collect sel_first] in *. destruct (sel_step d p st) as [i st'|st'|st'|]; try discriminate; [|apply IH, H].
  assert (Q : sel_collect fuel d p st' <> OutOfFuel) by (intros Q; rewrite Q in H; apply H; reflexivity).
  destruct (si_data i) as [t|k|t|k|e]; try (apply IH, Q); (destruct (get_elementdata d k) as [e|]; discriminate).
Qed.
Lemma first_mono d p : forall fuel st, sel_first fuel d p st <> OutOfFuel -> forall fuel', fuel <= fuel' -> sel_first fuel' d p st = sel_first fuel d p st.
Proof.
  induction fuel as [|n IH]; intros st H fuel' L; [destruct (H eq_refl)|]. destruct fuel' as [|f']; [lia|]. cbn in *. destruct (sel_step d p st) as [i st'|st'|st'|]; try reflexivity.
  - destruct (si_data i) as [t|k|t|k|e]; try (apply IH; [exact H|lia]); (destruct (get_elementdata d k) as [e|]; reflexivity).
  - apply IH; [exact H|lia].
Qed.
Lemma collect_ends d p k : fin d -> sp_inclusive p = false -> get_elementdata d k <> None -> exists n, sel_collect n d p (sel_init k) <> OutOfFuel.
Proof.
  intros F I G. destruct (matchable (sp_sel p)) eqn:M.
  - destruct (fin_walk d (sp_rec p) F k G 1) as (w & W). exists (S (2 * length w + 1)). eapply (collect_terminates d p w); [apply run_init; assumption|apply rest_start, W|cbn; lia].
  - exists 1. cbn. unfold sel_step. cbn. rewrite M. discriminate.
Qed.
Lemma find_settles d p k f : fin d -> sp_inclusive p = false -> get_elementdata d k <> None -> (forall k e, f k e <> OutOfFuel) ->
  settles (fun fuel => sel_find fuel d p (sel_init k) f).
Proof.
  intros F I G FN. destruct (collect_ends d p k F I G) as (n & H). pose proof (find_no_fuel d p f FN n _ H) as Q.
  exists n, (sel_find n d p (sel_init k) f). split; [exact Q|]. intros fuel L. apply find_mono; assumption.
Qed.
Lemma first_settles d p k : fin d -> sp_inclusive p = false -> get_elementdata d k <> None -> settles (fun fuel => sel_first fuel d p (sel_init k)).
Proof.
  intros F I G. destruct (collect_ends d p k F I G) as (n & H). pose proof (first_no_fuel d p n _ H) as Q.
  exists n, (sel_first n d p (sel_init k)). split; [exact Q|]. intros fuel L. apply first_mono; assumption.
Qed.

(* ---------------------------------------------------------------- parts without loops *)
Lemma rbind_nf {A B} (r : res A) (f : A -> res B) : r <> OutOfFuel -> (forall a, r = Ok a -> f a <> OutOfFuel) -> rbind r f <> OutOfFuel.
Proof. destruct r; cbn; intros; try discriminate; auto. Qed.
Lemma sbind_nf {A B} (r : document * res A) (f : document -> A -> document * res B) : snd r <> OutOfFuel -> (forall d a, snd (f d a) <> OutOfFuel) -> snd (sbind r f) <> OutOfFuel.
Proof. destruct r as [d []]; cbn; intros; try discriminate; auto. Qed.
Lemma unwrap_nf {A} (r : res A) : r <> OutOfFuel -> unwrap r <> OutOfFuel.
Proof. destruct r; cbn; congruence. Qed.
Lemma scan_encoded_nf pick l : scan_encoded pick l <> OutOfFuel.
Proof. induction l as [|a l IH]; cbn; [discriminate|]. destruct (pick a); [discriminate|]. destruct (a_encodable a); [discriminate|exact IH]. Qed.
Lemma scan_decoded_nf pick l : scan_decoded pick l <> OutOfFuel.
Proof. induction l as [|a l IH]; cbn; [discriminate|]. destruct (pick a); [discriminate|]. destruct (decodable a); [discriminate|exact IH]. Qed.
Lemma declaration_key_nf e : r_declaration_key e <> OutOfFuel.
Proof. apply unwrap_nf, scan_encoded_nf. Qed.
Lemma set_nf e : e_set e <> OutOfFuel.
Proof. apply scan_decoded_nf. Qed.
Lemma st_add_nf {T} mx mi ak (s : store T) x : snd (st_add mx mi ak s x) <> OutOfFuel.
Proof. unfold st_add. destruct (st_get_key mi s x); [discriminate|]. destruct (N.leb _ _); discriminate. Qed.
Lemma add_declaration_nf d x : snd (add_declaration d x) <> OutOfFuel.
Proof. unfold add_declaration. match goal with |- context [st_add ?m ?i ?a ?s ?y] => pose proof (st_add_nf m i a s y) as H; destruct (st_add m i a s y) as [s' [| | |]] end; cbn in *; congruence. Qed.
Lemma declare_nf d t s a f : snd (declare d t s a f) <> OutOfFuel.
Proof.
  unfold declare. destruct (get_declaration_key_by_id d (index_id t s)); [discriminate|]. cbv zeta. apply sbind_nf; [|discriminate].
  match goal with |- snd (match ?o with Some _ => _ | None => _ end) <> _ => destruct o; [discriminate|apply add_declaration_nf] end.
Qed.
Lemma ok_or_nf {A} (o : option A) e : ok_or o e <> OutOfFuel.
Proof. destruct o; discriminate. Qed.
Lemma expect_nf {A} (o : option A) : expect o <> OutOfFuel.
Proof. destruct o; discriminate. Qed.
Lemma encode_nf d e ctx : snd (encode d e ctx) <> OutOfFuel.
Proof.
  unfold encode. destruct (negb _); [discriminate|]. apply sbind_nf; [|intros; discriminate]. unfold encode_refs. destruct (et_annotationtype (e_type e)) as [t|].
  - apply sbind_nf; [apply unwrap_nf, set_nf|]. intros d1 s. apply sbind_nf; [apply declare_nf|]. intros d2 dk. destruct (intern_opt _ _ _ _) as [d3 ck].
    destruct (get_declaration d3 dk) as [dec|]; [|discriminate]. destruct (d_default_processor dec); [discriminate|]. destruct (doc_active d3); discriminate.
  - destruct (e_type e); try discriminate. destruct ctx as [pk|]; [|discriminate]. apply sbind_nf; [apply ok_or_nf|]. intros d1 pe. apply sbind_nf; [apply expect_nf|]. intros d2 t.
    apply sbind_nf; [apply unwrap_nf, set_nf|]. intros d3 s. apply sbind_nf; [apply declare_nf|]. intros d4 dk. destruct (intern_opt _ _ _ _) as [d5 ck]. destruct (intern_opt _ _ _ _). discriminate.
Qed.
Lemma store_add_nf d e ctx : snd (store_add d e ctx) <> OutOfFuel.
Proof.
  unfold store_add. apply sbind_nf; [destruct (e_encodable e); [apply encode_nf|discriminate]|]. intros d1 e1.
  pose proof (st_add_nf max_element e_maybe_id e_assign_key (doc_elements d1) e1) as H. destruct (st_add _ _ _ _ _). exact H.
Qed.
Lemma attach_nf d p c : snd (attach_element d p c) <> OutOfFuel.
Proof. unfold attach_element. destruct (get_elementdata d p); [|discriminate]. destruct (get_elementdata d c); discriminate. Qed.
Lemma settlesS_fixed {A} (r : document * res A) : snd r <> OutOfFuel -> settlesS (fun _ => r).
Proof. destruct r as [d v]. apply settlesS_const. Qed.

(* ---------------------------------------------------------------- post_add and the links to the children *)
Lemma find_root_settles d p k f : fin d -> sp_inclusive p = false -> (forall k e, f k e <> OutOfFuel) -> settles (fun fuel => sel_find fuel d p (sel_init k) f).
Proof.
  intros F I FN. destruct (get_elementdata d k) as [e|] eqn:G; [apply find_settles; auto; congruence|].
  exists 1. destruct (matchable (sp_sel p)) eqn:M.
  - exists Panic. split; [discriminate|]. intros [|fuel] L; [lia|]. cbn [sel_find]. unfold sel_step. cbn [sel_init ss_stack ss_iteration]. rewrite M, I. cbn. unfold sel_advance. cbn. rewrite G. reflexivity.
  - exists (Ok None). split; [discriminate|]. intros [|fuel] L; [lia|]. cbn [sel_find]. unfold sel_step. cbn [sel_init ss_stack ss_iteration]. rewrite M. reflexivity.
Qed.
Lemma first_root_settles d p k : fin d -> sp_inclusive p = false -> settles (fun fuel => sel_first fuel d p (sel_init k)).
Proof.
  intros F I. destruct (get_elementdata d k) as [e|] eqn:G; [apply first_settles; auto; congruence|].
  exists 1. destruct (matchable (sp_sel p)) eqn:M.
  - exists Panic. split; [discriminate|]. intros [|fuel] L; [lia|]. cbn [sel_first]. unfold sel_step. cbn [sel_init ss_stack ss_iteration]. rewrite M, I. cbn. unfold sel_advance. cbn. rewrite G. reflexivity.
  - exists (Ok None). split; [discriminate|]. intros [|fuel] L; [lia|]. cbn [sel_first]. unfold sel_step. cbn [sel_init ss_stack ss_iteration]. rewrite M. reflexivity.
Qed.
Lemma key_of_nf d k : key_of d k <> OutOfFuel.
Proof. unfold key_of. destruct (get_elementdata d k); [apply expect_nf|discriminate]. Qed.
Lemma layer_declaration_settles d e : fin d -> settles (fun fuel => layer_declaration fuel d e).
Proof.
  intros F. unfold layer_declaration. apply settles_bind; [apply settles_const; discriminate|]. intros s _ _. apply settles_bind; [apply settles_const, expect_nf|]. intros own _ _.
  apply find_root_settles; [exact F|reflexivity|]. intros k x. destruct (at_opt_eqb _ _); [apply declaration_key_nf|discriminate].
Qed.
Lemma post_add_wref_settles d k e : fin d -> settlesS (fun fuel => post_add_wref fuel d k e None).
Proof.
  intros F. unfold post_add_wref. destruct (attribs_last_idref (e_attribs e) None) as [r|]; [|apply settlesS_const; discriminate].
  apply settlesS_pure.
  - apply settles_bind; [apply anc_next_settles, F|]. intros [a|] _ _; [|apply settles_const; discriminate]. apply settles_const. apply rbind_nf; [apply key_of_nf|discriminate].
  - intros [sk|] _ _; [|apply settlesS_const; discriminate]. apply settlesS_fixed. apply sbind_nf.
    + cbn. unfold key_by_id. destruct (get_element_key_by_id d r) as [j|]; [|discriminate]. destruct (get_elementdata d j); discriminate.
    + intros d1 [tk|]; discriminate.
Qed.
Lemma post_add_settles d k : fin d -> settlesS (fun fuel => post_add fuel d k None).
Proof.
  intros F. unfold post_add. destruct (get_elementdata d k) as [e|]; [|apply settlesS_const; discriminate].
  assert (L : settlesS (fun fuel => if group_contains EG_Layer (e_type e) && negb (e_has_attrib e AB_SET)
       then let! d, dk := (d, layer_declaration fuel d e) in
            match dk with
            | Some dk => (upd_element d k (fun x => e_with_attribs x [A_DeclarationRef dk]), Ok tt)
            | None => (d, Ok tt)
            end
       else (d, Ok tt))).
  { destruct (_ && _); [|apply settlesS_const; discriminate]. apply settlesS_pure; [apply layer_declaration_settles, F|]. intros [dk|] _ _; apply settlesS_const; discriminate. }
  destruct (e_type e); try exact L. apply post_add_wref_settles, F.
Qed.
Lemma set_parent_adopt d q k j : sh (upd_element d k (e_set_parent (Some q))) j = adopt (sh d) q [k] j.
Proof.
  rewrite sh_upd. unfold adopt. cbn [mem_nat existsb]. rewrite orb_false_r. destruct (Nat.eqb_spec j k) as [->|]; [|reflexivity].
  unfold sh. destruct (get_elementdata d k) as [e|]; [|reflexivity]. destruct e; reflexivity.
Qed.
Lemma link_children_settles q ks : forall d, fin d -> ~ In q ks -> spar (sh d) q = None -> settlesS (fun fuel => link_children fuel d q ks).
Proof.
  induction ks as [|k ks IH]; intros d F NQ PQ; cbn [link_children]; [apply settlesS_const; discriminate|].
  assert (F1 : fin (upd_element d k (e_set_parent (Some q)))).
  { eapply (fin_adopt d _ q [k]); [exact F|apply set_parent_adopt| |exact PQ]. intros [->|[]]. apply NQ. left. reflexivity. }
  apply settlesS_bind; [apply post_add_settles, F1|]. intros d2 u n H.
  pose proof (post_add_sh n (upd_element d k (e_set_parent (Some q))) k None) as S. rewrite (H n (Nat.le_refl n)) in S. cbn [fst] in S.
  apply IH; [eapply fin_same; eassumption|intros I; apply NQ; right; exact I|].
  destruct S as (S & _). unfold spar in *. rewrite S, set_parent_adopt. unfold adopt. destruct (mem_nat q [k]) eqn:M; [|exact PQ].
  apply mem_nat_spec in M. destruct M as [->|[]]. destruct NQ. left. reflexivity.
Qed.

(* ---------------------------------------------------------------- adding elements *)
Lemma add_children_settles d c : settlesS (fun fuel => add_data fuel d (e_data c)) -> settlesS (fun fuel => add_children fuel d c).
Proof.
  intros (n & d1 & v & V & H). destruct (existsb is_add (e_data c)) eqn:E.
  - destruct v as [x|x| |]; [exists n, d1, (Ok (e_with_data c (fst x), Some (snd x)))|exists n, d1, (Err x)|exists n, d1, Panic|congruence];
      (split; [discriminate|]); intros fuel L; rewrite add_children_eq, E, (H fuel L); reflexivity.
  - exists 0, d, (Ok (c, None)). split; [discriminate|]. intros fuel L. rewrite add_children_eq, E. reflexivity.
Qed.
(* what is known once the content of a fresh element has been added and the element itself stored *)
Lemma stored_fin d c n dA lc kc ctx dB ck : forest d -> fresh_for d c -> add_data n d (e_data c) = (dA, Ok (lc, kc)) -> store_add dA (e_with_data c lc) ctx = (dB, Ok ck) ->
  fin dB /\ ~ In ck kc /\ spar (sh dB) ck = None.
Proof.
  intros F (NE & ND & NI) A B. assert (NI' : forall id, In id (ids_in c) -> ~ has_id d id) by (intros id I; apply not_has_id, NI, I).
  destruct (all_adds_well c _ _ _ _ _ A NE ND NI') as [F1 L1 O1 P1 N1 W1 G1].
  assert (KS : kc = child_keys lc).
  { pose proof (add_data_keys _ _ _ _ _ A) as K. cbn in K. apply K. inversion NE; assumption. }
  assert (NEW : new_id dA (e_with_data c lc)).
  { intros id E. apply not_has_id. intros HI. destruct (G1 _ HI) as [H0|H0].
    - apply (NI' id); [|exact H0]. rewrite ids_in_eq. unfold e_id in *. cbn in E. rewrite E. left. reflexivity.
    - rewrite ids_in_eq in ND. unfold e_id in ND, E. cbn in E. rewrite E in ND. cbn in ND. inversion ND; contradiction. }
  destruct (store_add_sh _ _ _ _ _ NEW B) as (EK & _ & S2 & _). subst ck.
  split; [|split].
  - eapply (fin_new dA dB); [apply fin_forest, F1, F|apply sh_new|exact S2|cbn; inversion NE; assumption|]. intros x I. cbn in I. rewrite child_keys_content in I. apply (W1 x I).
  - subst kc. intros I. destruct (W1 _ I) as (_ & Q & _). apply Q, sh_new.
  - unfold spar. rewrite S2, Nat.eqb_refl. cbn. inversion NE; assumption.
Qed.
Lemma add_data_settles e : forall d, forest d -> fresh_for d e -> settlesS (fun fuel => add_data fuel d (e_data e)).
Proof.
  induction e as [e IH] using elem_ind. intros d F (NE & ND & NI).
  assert (NIT : new_items (e_data e)) by (inversion NE; split; [|split]; assumption).
  assert (NDD : NoDup (ids_data (e_data e))). { rewrite ids_in_eq in ND. apply NoDup_app_inv in ND. tauto. }
  assert (NID : forall id, In id (ids_data (e_data e)) -> ~ has_id d id). { intros id I. apply not_has_id, NI. rewrite ids_in_eq, in_app_iff. auto. }
  clear NE ND NI. revert d F NDD NID. induction (e_data e) as [|x r IHr]; intros d F ND NI; [apply settlesS_const; discriminate|].
  inversion IH as [|x' r' HX HR]; subst. destruct (new_items_cons _ _ NIT) as (NR & NX). specialize (IHr HR NR). destruct x; cbn [add_data]; try contradiction.
  - apply settlesS_bind; [apply IHr; auto|]. intros d1 y _ _. apply settlesS_const. discriminate.
  - apply settlesS_bind; [apply IHr; auto|]. intros d1 y _ _. apply settlesS_const. discriminate.
  - cbn [ids_data] in ND, NI. apply NoDup_app_inv in ND. destruct ND as (NDc & NDr & DIS).
    assert (NIc : forall id, In id (ids_in e0) -> ~ has_id d id) by (intros id I; apply NI, in_app_iff; auto).
    assert (FR : fresh_for d e0) by (split; [exact NX|]; split; [exact NDc|]; intros id I; apply not_has_id, NIc, I).
    apply settlesS_bind; [apply add_children_settles, HX; assumption|]. intros dA z nA A. pose proof (A nA (Nat.le_refl nA)) as A0.
    destruct (add_children_data _ _ _ _ _ A0) as (lc & kc & A1 & A2 & A3). rewrite A2, A3.
    apply settlesS_bind; [apply settlesS_fixed, store_add_nf|]. intros dB ck nB B. specialize (B nB (Nat.le_refl nB)).
    destruct (stored_fin d e0 nA dA lc kc None dB ck F FR A1 B) as (FB & NK & PK).
    apply settlesS_bind; [apply link_children_settles; assumption|]. intros dC u nC C.
    assert (AM : add_data (max nA nC) d (e_data e0) = (dA, Ok (lc, kc))).
    { pose proof (A (max nA nC) (Nat.le_max_l _ _)) as Q. destruct (add_children_data _ _ _ _ _ Q) as (lc' & kc' & Q1 & Q2 & Q3). rewrite Q1. f_equal. f_equal.
      assert (lc' = lc) by (rewrite Q2 in A2; injection A2; auto). assert (kc' = kc) by congruence. congruence. }
    pose proof (C (max nA nC) (Nat.le_max_r _ _)) as CM. destruct u.
    destruct (add_one _ d e0 dA lc kc None dB ck dC (all_adds_well e0) AM NX NDc NIc B CM) as (_ & _ & FC & _ & _ & _ & _ & GC).
    apply settlesS_bind; [apply IHr; auto|].
    { intros id I HI. destruct (GC _ HI) as [Q|Q]; [apply (NI id); [apply in_app_iff; auto|exact Q]|]. apply (DIS _ Q I). }
    intros dD y _ _. apply settlesS_const. discriminate.
Qed.
Lemma add_element_settles d e : forest d -> fresh_for d e -> settlesS (fun fuel => add_element fuel d e).
Proof.
  intros F FR. unfold add_element. apply settlesS_bind; [apply add_children_settles, add_data_settles; assumption|]. intros d1 x _ _. apply settlesS_fixed, store_add_nf.
Qed.
Lemma add_element_to_settles d p e : forest d -> fresh_for d e -> get_elementdata d p <> None -> settlesS (fun fuel => add_element_to fuel d p e).
Proof.
  intros F FR HP. pose proof (sh_exists _ _ HP) as PL. unfold add_element_to.
  apply settlesS_bind; [apply add_children_settles, add_data_settles; assumption|]. intros dA z nA A. pose proof (A nA (Nat.le_refl nA)) as A0.
  destruct (add_children_data _ _ _ _ _ A0) as (lc & kc & A1 & A2 & A3). rewrite A2, A3.
  apply settlesS_bind; [apply settlesS_fixed; pose proof (store_add_nf dA (e_with_data e lc) (Some p)) as Q; destruct (store_add dA (e_with_data e lc) (Some p)) as [? [| | |]]; cbn in *; congruence|].
  intros dB ck nB B. specialize (B nB (Nat.le_refl nB)).
  assert (B' : store_add dA (e_with_data e lc) (Some p) = (dB, Ok ck)) by (unfold map_err in B; destruct (store_add dA (e_with_data e lc) (Some p)) as [? [| | |]]; congruence).
  destruct (stored_fin d e nA dA lc kc (Some p) dB ck F FR A1 B') as (FB & NK & PK).
  apply settlesS_bind; [apply link_children_settles; assumption|]. intros dC u nC C.
  apply settlesS_bind; [apply settlesS_fixed, attach_nf|]. intros dD v nD D. specialize (D nD (Nat.le_refl nD)).
  apply settlesS_bind; [|intros dE w _ _; apply settlesS_const; discriminate].
  apply post_add_settles, fin_forest. destruct FR as (NE & ND & NI). assert (NI' : forall id, In id (ids_in e) -> ~ has_id d id) by (intros id I; apply not_has_id, NI, I).
  assert (AM : add_data (max nA nC) d (e_data e) = (dA, Ok (lc, kc))).
  { pose proof (A (max nA nC) (Nat.le_max_l _ _)) as Q. destruct (add_children_data _ _ _ _ _ Q) as (lc' & kc' & Q1 & Q2 & Q3). rewrite Q1. f_equal. f_equal.
    assert (lc' = lc) by (rewrite Q2 in A2; injection A2; auto). assert (kc' = kc) by congruence. congruence. }
  pose proof (C (max nA nC) (Nat.le_max_r _ _)) as CM. destruct u, v.
  destruct (add_one _ d e dA lc kc (Some p) dB ck dC (all_adds_well e) AM NE ND NI' B' CM) as (EK & _ & FC & OC & _ & PC & XC & _).
  apply (attach_new_forest d dC dD p ck); auto. lia.
Qed.

(* ---------------------------------------------------------------- annotate *)
Lemma check_nf d p e : check_element_addable d p e <> OutOfFuel.
Proof. unfold check_element_addable. destruct (get_elementdata d p); [|discriminate]. destruct (existsb _ _); discriminate. Qed.
Lemma add_checked_settles d p e : forest d -> fresh_for d e -> settlesS (fun fuel => add_checked fuel d p e).
Proof.
  intros F FR. unfold add_checked. apply settlesS_pure; [apply settles_const, check_nf|]. intros u n H. specialize (H n (Nat.le_refl n)).
  apply add_element_to_settles; auto. eapply check_exists, H.
Qed.
Lemma get_layer_key_settles d k t set : fin d -> settles (fun fuel => get_layer_key fuel d k t set).
Proof.
  intros F. unfold get_layer_key. apply settles_bind; [apply settles_const, ok_or_nf|]. intros lt _ _.
  apply settles_bind; [apply settles_const; destruct set; discriminate|]. intros s _ _.
  destruct (get_elementdata d k) as [e|]; [|apply settles_const; discriminate].
  apply settles_bind; [apply settles_const, expect_nf|]. intros own _ _. apply settles_bind; [apply first_root_settles; [exact F|reflexivity]|].
  intros [j|] _ _; apply settles_const; discriminate.
Qed.
Lemma add_in_layer_settles d lo ho t lt set e : forest d -> fresh_for d e -> settlesS (fun fuel => add_in_layer fuel d lo ho t lt set e).
Proof.
  intros F FR. unfold add_in_layer. apply settlesS_pure; [apply get_layer_key_settles, fin_forest, F|]. intros lk _ _.
  destruct lk as [k|].
  - apply settlesS_bind; [apply settlesS_const; discriminate|]. intros d1 k1 n H. specialize (H n (Nat.le_refl n)). injection H as <- <-. apply add_checked_settles; assumption.
  - destruct (fresh_for_layer lt set d) as (FL & IL). cbv zeta. apply settlesS_bind.
    + apply settlesS_pure; [apply settles_const, check_nf|]. intros u n H. specialize (H n (Nat.le_refl n)). apply add_element_to_settles; auto. eapply check_exists, H.
    + intros d1 lk n H. specialize (H n (Nat.le_refl n)). cbv beta in H.
      apply sbind_ok in H. destruct H as (d2 & u & C & H). injection C as <- C. apply check_exists in C. apply sh_exists in C.
      destruct (add_element_to_tree _ _ _ _ _ _ C FL H) as (_ & _ & _ & _ & _ & G & F3). apply add_checked_settles; [apply F3, F|].
      destruct FR as (A & B & D). split; [exact A|]. split; [exact B|]. intros id I. apply not_has_id. intros Q. destruct (G _ Q) as [Q'|Q']; [|rewrite IL in Q'; destruct Q'].
      apply not_has_id in Q'; [exact Q'|apply D, I].
Qed.
Lemma keys_of_nf d l : keys_of d l <> OutOfFuel.
Proof. induction l as [|k l IH]; cbn [keys_of]; [discriminate|]. apply rbind_nf; [apply key_of_nf|]. intros x _. apply rbind_nf; [exact IH|discriminate]. Qed.
Lemma common_settles d s l : fin d -> settles (fun fuel => common_ancestors fuel d s l).
Proof.
  intros F. unfold common_ancestors. generalize (@nil nat) as r. induction l as [|k l IH]; intros r; cbn [common_loop]; [apply settles_const; discriminate|].
  destruct (get_elementdata d k) as [e|]; [|apply IH]. apply settles_bind; [apply settles_const, expect_nf|]. intros own _ _.
  apply settles_bind; [apply ancestors_settles, F|]. intros a _ _. apply settles_bind; [apply settles_const, keys_of_nf|]. intros b _ _. apply IH.
Qed.
Lemma annotate_settles d p e : forest d -> fresh_for d e -> settlesS (fun fuel => annotate fuel d p e).
Proof.
  intros F FR. unfold annotate. destruct (get_elementdata d p) as [pe|]; [|apply settlesS_const; discriminate].
  destruct (group_contains EG_Span (e_type e)); [|apply add_checked_settles; assumption].
  apply settlesS_pure; [apply settles_const, expect_nf|]. intros t _ _. apply settlesS_pure; [apply settles_const, ok_or_nf|]. intros lt _ _. cbv zeta.
  apply settlesS_pure.
  - apply settles_const. destruct (_ || _); [|discriminate]. apply rbind_nf; [apply set_nf|]. intros [s|] _; [discriminate|]. destruct (get_default_set d t); discriminate.
  - intros set _ _. destruct (p_wrefable (props (e_type pe))).
    + destruct (get_span_keys d e) as [|k ks]; [apply settlesS_const; discriminate|]. apply settlesS_pure; [apply settles_const; discriminate|]. intros s _ _.
      apply settlesS_pure; [apply common_settles, fin_forest, F|]. intros anc _ _. destruct (find (suitable d lt) anc); [apply add_in_layer_settles; assumption|apply settlesS_const; discriminate].
    + destruct (negb false && _); [apply add_in_layer_settles; assumption|apply add_checked_settles; assumption].
Qed.
Lemma annotate_span_settles d e : forest d -> fresh_for d e -> settlesS (fun fuel => annotate_span fuel d e).
Proof.
  intros F FR. unfold annotate_span. destruct (negb _); [apply settlesS_const; discriminate|]. destruct (get_span_keys d e) as [|k ks]; [apply settlesS_const; discriminate|].
  apply annotate_settles; assumption.
Qed.
