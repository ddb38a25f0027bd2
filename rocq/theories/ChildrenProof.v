(** Proofs about child lists (src/metaresc.c:614-666). *)
From stdpp Require Import sets.
From Verif Require Import Base Ptrs.

(** ** Specification: a forest given by its child lists *)
(** [f_kids p] lists the children of [p] in the order they were attached. *)
Record forest := Forest { f_size : nat; f_par : nat -> nat; f_kids : nat -> list nat }.

Definition fset {A} (f : nat -> A) (i : nat) (v : A) : nat -> A := fun j => if Nat.eqb j i then v else f j.

Definition forest0 : forest := Forest 1 (fun _ => 0) (fun _ => []).
Definition f_new (f : forest) : forest := Forest (S (f_size f)) (f_par f) (f_kids f).
(** Attaching below the NULL node makes a root: no list changes. *)
Definition f_link (f : forest) (p c : nat) : forest :=
  if Nat.eqb p 0 then f
  else Forest (f_size f) (fset (f_par f) c p) (fset (f_kids f) p (f_kids f p ++ [c])).

(** [anc par x y]: [y] is [x] or one of its ancestors. *)
Inductive anc (par : nat -> nat) : nat -> nat -> Prop :=
  | anc_refl x : anc par x x
  | anc_up x y : par x <> 0 -> anc par (par x) y -> anc par x y.

(** [c] may be attached below [p]: it is an allocated node without parent, and
    was allocated after [p]. *)
Definition attachable (f : forest) (p c : nat) : Prop :=
  p < c /\ c < f_size f /\ f_par f c = 0.

(** Histories.  [hist os f cache focus]: [os] builds [f]; [cache] is the node
    attached or asked for last, [focus] the node below which the current run of
    attachments takes place.  A new run may begin at any node; within a run no
    call is for a proper ancestor of the focus. *)
Inductive hist : list pop -> forest -> nat -> nat -> Prop :=
  | hist_nil : hist [] forest0 0 0
  | hist_new os f c t : hist os f c t -> hist (os ++ [New]) (f_new f) c t
  | hist_root os f c t x : hist os f c t -> attachable f 0 x ->
      hist (os ++ [Link 0 x]) f x x
  | hist_link os f c t p x t' : hist os f c t -> p <> 0 -> attachable f p x ->
      ~ (p <> t /\ anc (f_par f) t p) ->
      (anc (f_par f) c p /\ c <> 0 /\ t' = t \/ ~ anc (f_par f) c p /\ t' = p) ->
      hist (os ++ [Link p x]) (f_link f p x) x t'
  | hist_last os f c t p x t' : hist os f c t -> p <> 0 -> p < f_size f ->
      last (f_kids f p) = Some x ->
      ~ (p <> t /\ anc (f_par f) t p) ->
      (anc (f_par f) c p /\ c <> 0 /\ t' = t \/ ~ anc (f_par f) c p /\ t' = p) ->
      hist (os ++ [Last p]) f x t'
  | hist_last_none os f c t p : hist os f c t -> p < f_size f -> f_kids f p = [] ->
      hist (os ++ [Last p]) f c t.

(** ** Representation *)
Fixpoint linked (ns : list node) (h : nat) (l : list nat) : Prop :=
  match l with
  | [] => h = 0
  | x :: l => h = x /\ x <> 0 /\ exists n, ns !! x = Some n /\ linked ns (next n) l
  end.

Record rep (f : forest) (ns : list node) : Prop := {
  rep_len : length ns = f_size f;
  rep_pos : 0 < f_size f;
  rep_parent : forall i n, ns !! i = Some n -> parent n = f_par f i;
  rep_kids : forall i n, ns !! i = Some n -> linked ns (first_child n) (f_kids f i);
  rep_in : forall p c, c ∈ f_kids f p <-> f_par f c = p /\ p <> 0;
  rep_root : forall i n, ns !! i = Some n -> f_par f i = 0 -> next n = 0;
  rep_lt : forall c, f_par f c <> 0 -> f_par f c < c /\ c < f_size f;
  rep_nodup : forall p, NoDup (f_kids f p) }.

Lemma linked_le ns h l : linked ns h l -> Forall (fun x => x < length ns) l.
Proof.
  revert h; induction l as [|x l IH]; intros h; [done|]. intros (-> & _ & n & E & L).
  constructor; [by eapply lookup_lt_Some|by eapply IH].
Qed.

Lemma linked_nz ns h l : linked ns h l -> Forall (fun x => x <> 0) l.
Proof. revert h; induction l as [|x l IH]; intros h; [done|]. intros (-> & ? & n & E & L). constructor; eauto. Qed.

(** Nodes outside the list do not matter. *)
Lemma linked_frame ns ns' h l :
  (forall x n, x ∈ l -> ns !! x = Some n -> exists n', ns' !! x = Some n' /\ next n' = next n) ->
  linked ns h l -> linked ns' h l.
Proof.
  revert h; induction l as [|x l IH]; intros h F; [done|]. intros (-> & ? & n & E & L). split; [done|]. split; [done|].
  destruct (F x n) as (n' & E' & N); [by left|done|]. exists n'. split; [done|]. rewrite N. apply IH; [|done].
  intros y m ? ?. apply F; [by right|done].
Qed.

Lemma linked_walk ns h l fuel : linked ns h l -> length l < fuel -> walk_next fuel ns h = Some l.
Proof.
  revert h fuel; induction l as [|x l IH]; intros h fuel L F; (destruct fuel as [|fuel]; [cbn in F; lia|]); cbn in L |- *.
  - by subst h.
  - destruct L as (-> & ? & n & E & L). destruct (Nat.eqb_spec x 0); [done|]. rewrite (rd_lu _ _ _ E). cbn.
    rewrite (IH _ _ L); [done|cbn in F; lia].
Qed.

Lemma nodup_bounded (l : list nat) n : NoDup l -> Forall (fun x => x < n) l -> length l <= n.
Proof.
  intros N F. rewrite <- (seq_length n 0). apply submseteq_length, NoDup_submseteq; [done|].
  intros x Hx. apply elem_of_seq. rewrite Forall_forall in F. specialize (F _ Hx). lia.
Qed.

Lemma linked_unique ns h l1 l2 : linked ns h l1 -> linked ns h l2 -> l1 = l2.
Proof.
  revert h l2; induction l1 as [|x l1 IH]; intros h [|y l2]; cbn; [done|..].
  - intros ? (? & ? & _). congruence.
  - intros (? & ? & _) ?. congruence.
  - intros (-> & ? & n & E & L) (-> & _ & n' & E' & L'). f_equal. rewrite E in E'. injection E' as <-. by eapply IH.
Qed.

Lemma rep_children f ns p : rep f ns -> p < f_size f -> children ns p = Some (f_kids f p).
Proof.
  intros R P. destruct (lookup_lt_is_Some_2 ns p) as [n E]; [by rewrite (rep_len _ _ R)|].
  unfold children. rewrite (rd_lu _ _ _ E). cbn -[walk_next].
  pose proof (rep_kids _ _ R _ _ E) as L. apply linked_walk; [done|].
  apply Nat.lt_succ_r, nodup_bounded; [apply R|by eapply linked_le].
Qed.

Lemma anc_trans par x y z : anc par x y -> anc par y z -> anc par x z.
Proof. induction 1; [done|]. intros. apply anc_up; auto. Qed.
Lemma anc_total par x y z : anc par x y -> anc par x z -> anc par y z \/ anc par z y.
Proof.
  induction 1 as [x|x y N A IH]; intros B; [by left|].
  inversion B; subst; [right; by apply anc_up|]. by apply IH.
Qed.

Section Rep.
  Context (f : forest) (ns : list node) (R : rep f ns).

  Lemma anc_le x y : anc (f_par f) x y -> y <= x.
  Proof. induction 1 as [|x y N A IH]; [done|]. pose proof (rep_lt _ _ R x N). lia. Qed.

  Lemma par_zero : f_par f 0 = 0.
  Proof. destruct (Nat.eq_dec (f_par f 0) 0) as [|N]; [done|]. pose proof (rep_lt _ _ R 0 N). lia. Qed.
  Lemma anc_zero x : anc (f_par f) 0 x -> x = 0.
  Proof. intros A. apply anc_le in A. lia. Qed.

  Lemma anc_nz x y : anc (f_par f) x y -> x <> 0 -> y <> 0.
  Proof. induction 1; auto. Qed.

  Lemma anc_parent_unique c x y : anc (f_par f) c x -> anc (f_par f) c y -> f_par f x = f_par f y -> f_par f x <> 0 -> x = y.
  Proof.
    intros A B E N.
    assert (forall a b, anc (f_par f) a b -> f_par f a = f_par f b -> f_par f a <> 0 -> a = b) as G.
    { intros a b H Eab Na. inversion H; subst; [done|]. apply anc_le in H1. pose proof (rep_lt _ _ R b ltac:(congruence)). lia. }
    destruct (anc_total _ _ _ _ A B) as [H|H]; [by apply G|symmetry; apply G; congruence].
  Qed.

  Lemma climb_ok p c fuel : p <> 0 -> c < fuel -> c < f_size f ->
    exists x, climb_to fuel ns p c = Some x /\
      (x = 0 /\ (forall y, anc (f_par f) c y -> f_par f y <> p) \/
       x <> 0 /\ anc (f_par f) c x /\ f_par f x = p).
  Proof.
    intros P. revert c; induction fuel as [|fuel IH]; intros c C S; [lia|]. cbn.
    destruct (Nat.eqb_spec c 0) as [->|Z].
    { exists 0. split; [done|]. left. split; [done|]. intros y ->%anc_zero. rewrite par_zero. congruence. }
    destruct (lookup_lt_is_Some_2 ns c) as [n E]; [by rewrite (rep_len _ _ R)|]. rewrite (rd_lu _ _ _ E). cbn.
    rewrite (rep_parent _ _ R _ _ E). destruct (Nat.eqb_spec (f_par f c) p) as [Ep|Np].
    { exists c. split; [done|]. right. split; [done|]. split; [constructor|done]. }
    destruct (Nat.eq_dec (f_par f c) 0) as [E0|N0].
    { exists 0. rewrite E0. destruct fuel; [lia|]. cbn. split; [done|]. left. split; [done|].
      intros y A. inversion A; subst; congruence. }
    pose proof (rep_lt _ _ R c N0) as [? ?].
    destruct (IH (f_par f c)) as (x & E1 & O); [lia..|]. exists x. split; [done|].
    destruct O as [[-> Hn]|(? & ? & ?)].
    - left. split; [done|]. intros y A. inversion A; subst; auto.
    - right. repeat split; [done| |done]. by apply anc_up.
  Qed.

  Lemma scan_ok h l x fuel : linked ns h (l ++ [x]) -> length l < fuel -> scan_last fuel ns h = Some x.
  Proof.
    revert h fuel; induction l as [|y l IH]; intros h fuel L F; (destruct fuel as [|fuel]; [lia|]); cbn in L |- *.
    - destruct L as (-> & ? & n & E & N). rewrite (rd_lu _ _ _ E). cbn. by rewrite N.
    - destruct L as (-> & ? & n & E & L). rewrite (rd_lu _ _ _ E). cbn.
      destruct (Nat.eqb_spec (next n) 0) as [Z|]; [|eapply IH; [done|cbn in F; lia]].
      exfalso. rewrite Z in L. destruct l; cbn in L; destruct L as (? & ? & _); congruence.
  Qed.

  (** The result of mr_last_child_for_parent. *)
  Lemma last_child_ok c p : c < f_size f -> p <> 0 -> p < f_size f ->
    exists x, last_child_for_parent (Ptrs ns c) p = Some (x, Ptrs ns (match f_kids f p with [] => c | _ => x end)) /\
      match last (f_kids f p) with
      | None => x = 0
      | Some z => (x = z /\ (forall y, anc (f_par f) c y -> f_par f y <> p)) \/
                  (anc (f_par f) c x /\ f_par f x = p)
      end.
  Proof.
    intros C P Sp. unfold last_child_for_parent. destruct (Nat.eqb_spec p 0); [done|].
    destruct (lookup_lt_is_Some_2 ns p) as [np E]; [by rewrite (rep_len _ _ R)|]. cbn -[climb_to scan_last]. rewrite (rd_lu _ _ _ E).
    pose proof (rep_kids _ _ R _ _ E) as L. cbn -[climb_to scan_last].
    destruct (f_kids f p) as [|k0 ks] eqn:K.
    { cbn in L. rewrite L. cbn. exists 0. done. }
    assert (exists l z, k0 :: ks = l ++ [z]) as (l & z & Ez).
    { destruct (exists_last (l := k0 :: ks)) as (l & z & ?); [done|]. eauto. }
    pose proof L as (F0 & K0 & _). rewrite <- F0 in K0. destruct (Nat.eqb_spec (first_child np) 0); [done|].
    rewrite Ez, last_snoc. rewrite Ez in L.
    destruct (climb_ok p c (S (length ns)) P) as (x & Ex & O); [rewrite (rep_len _ _ R); lia|done|].
    rewrite Ex. cbn -[scan_last]. destruct O as [[-> O]|(X & A & Px)].
    - cbn -[scan_last]. rewrite (scan_ok _ _ _ _ L).
      + exists z. cbn -[scan_last]. split; [done|]. by left.
      + pose proof (nodup_bounded (f_kids f p) (length ns) (rep_nodup _ _ R p)) as B. rewrite K, Ez in B.
        specialize (B (linked_le _ _ _ L)). rewrite app_length in B. cbn in B. lia.
    - destruct (Nat.eqb_spec x 0); [done|]. exists x. split; [done|]. right. done.
  Qed.
End Rep.

(** The link of the last child, or of the parent, is redirected to the new child. *)
Lemma linked_snoc ns ns' h l x n c nc :
  linked ns h (l ++ [x]) -> NoDup (l ++ [x]) -> ns !! x = Some n ->
  ns' !! x = Some (set_next n c) -> ns' !! c = Some nc -> next nc = 0 -> c <> 0 ->
  (forall y, y ∈ l -> ns' !! y = ns !! y) -> linked ns' h (l ++ [x; c]).
Proof.
  revert h; induction l as [|y l IH]; intros h L N X X' Cc Z Nz Fr; cbn in L |- *.
  - destruct L as (-> & ? & m & E & L). split; [done|]. split; [done|]. exists (set_next n c). split; [done|].
    cbn. split; [done|]. split; [done|]. eauto.
  - destruct L as (-> & ? & m & E & L). split; [done|]. split; [done|]. exists m.
    split; [rewrite Fr; [done|by left]|]. inversion N; subst. apply IH; try done. intros; apply Fr; by right.
Qed.

Lemma upd_ok ns i n g : ns !! i = Some n -> upd ns i g = Some (<[i := g n]> ns).
Proof. intros E. unfold upd. rewrite (rd_lu _ _ _ E). cbn. apply wr_Some. by eapply lookup_lt_Some. Qed.

(** What mr_add_child does to a well-formed table: the node found by
    mr_last_child_for_parent gets the new child as its successor. *)
Lemma add_child_root f ns c x : rep f ns -> attachable f 0 x ->
  exists ns', add_child (Ptrs ns c) 0 x = Some (Ptrs ns' x) /\ rep f ns'.
Proof.
  intros R (Px & Sx & Rx). unfold add_child. cbn.
  destruct (lookup_lt_is_Some_2 ns x) as [n E]; [by rewrite (rep_len _ _ R)|].
  rewrite (upd_ok _ _ _ _ E). cbn. exists (<[x := set_parent n 0]> ns). split; [done|].
  assert (set_parent n 0 = n) as ->.
  { pose proof (rep_parent _ _ R _ _ E). rewrite Rx in H. destruct n; cbn in *; by subst. }
  by rewrite list_insert_id.
Qed.

(** The state after the stores of mr_add_child, by cases. *)
Lemma add_child_eq f ns c p x n nx : rep f ns -> p <> 0 -> c < f_size f -> attachable f p x ->
  ns !! p = Some n -> ns !! x = Some nx ->
  exists lc, fst <$> last_child_for_parent (Ptrs ns c) p = Some lc /\
  add_child (Ptrs ns c) p x =
    Some (Ptrs (let ns1 := <[x := set_parent nx p]> ns in
      match f_kids f p with
      | [] => <[p := set_first_child n x]> ns1
      | _ => match ns1 !! lc with Some nl => <[lc := set_next nl x]> ns1 | None => ns1 end
      end) x) /\
  match last (f_kids f p) with
  | None => lc = 0
  | Some z => lc <> x /\ lc < f_size f /\ f_par f lc = p /\ ((lc = z /\ (forall y, anc (f_par f) c y -> f_par f y <> p)) \/
                  anc (f_par f) c lc)
  end.
Proof.
  intros R P C (Px & Sx & Rx) En Ex.
  destruct (last_child_ok f ns R c p C P) as (lc & El & O); [lia|].
  exists lc. rewrite El. split; [done|].
  assert (match last (f_kids f p) with
  | None => lc = 0
  | Some z => lc <> x /\ lc < f_size f /\ f_par f lc = p /\ ((lc = z /\ (forall y, anc (f_par f) c y -> f_par f y <> p)) \/
                  anc (f_par f) c lc) end) as O'.
  { destruct (last (f_kids f p)) as [z|] eqn:Lz; [|done].
    assert (f_par f lc = p) as Hp.
    { destruct O as [[-> _]|[_ ?]]; [|done]. apply (rep_in _ _ R). apply last_Some in Lz as [l' ->]. set_solver. }
    assert (lc < f_size f) by (apply (rep_lt _ _ R); congruence).
    repeat split; [intros ->; congruence|done|done|]. destruct O as [?|[? ?]]; auto. }
  split; [|done]. clear O. rename O' into O.
  unfold add_child. rewrite El. cbn -[upd]. rewrite (upd_ok _ _ _ _ Ex). cbn -[upd].
  destruct (Nat.eqb_spec p 0); [done|].
  assert (<[x:=set_parent nx p]> ns !! p = Some n) as En1 by (rewrite list_lookup_insert_ne; [done|lia]).
  rewrite (rd_lu _ _ _ En1). cbn -[upd].
  pose proof (rep_kids _ _ R _ _ En) as L. destruct (f_kids f p) as [|k0 ks] eqn:K.
  - cbn in L. rewrite L. cbn -[upd]. by rewrite (upd_ok _ _ _ _ En1).
  - pose proof L as (F0 & K0 & _). rewrite <- F0 in K0. destruct (Nat.eqb_spec (first_child n) 0); [done|].
    destruct (last (k0 :: ks)) as [z|] eqn:Lz; [|by rewrite last_None in Lz].
    destruct O as (O1 & O2 & O3 & _). destruct (Nat.eqb_spec lc 0) as [->|]; [|].
    { rewrite (par_zero f ns R) in O3. congruence. }
    destruct (lookup_lt_is_Some_2 ns lc) as [nl E]; [by rewrite (rep_len _ _ R)|].
    assert (<[x:=set_parent nx p]> ns !! lc = Some nl) as E1 by (rewrite list_lookup_insert_ne; [done|congruence]).
    rewrite (upd_ok _ _ _ _ E1), E1. done.
Qed.

Lemma fset_same {A} (g : nat -> A) i v : fset g i v i = v.
Proof. unfold fset. by rewrite Nat.eqb_refl. Qed.
Lemma fset_other {A} (g : nat -> A) i v j : j <> i -> fset g i v j = g j.
Proof. unfold fset. by destruct (Nat.eqb_spec j i). Qed.

Lemma kids_empty_unless f ns i : rep f ns -> f_par f i = 0 -> forall p, i ∉ f_kids f p.
Proof. intros R Z p I. apply (rep_in _ _ R) in I as [? ?]. congruence. Qed.

(** Correct append. *)
Lemma add_child_ok f ns c p x : rep f ns -> p <> 0 -> c < f_size f -> attachable f p x ->
  (forall y, anc (f_par f) c y -> f_par f y = p -> last (f_kids f p) = Some y) ->
  exists ns', add_child (Ptrs ns c) p x = Some (Ptrs ns' x) /\ rep (f_link f p x) ns'.
Proof.
  intros R P C A Hit. pose proof A as (Px & Sx & Rx).
  destruct (lookup_lt_is_Some_2 ns p) as [n En]; [rewrite (rep_len _ _ R); lia|].
  destruct (lookup_lt_is_Some_2 ns x) as [nx Ex]; [rewrite (rep_len _ _ R); lia|].
  destruct (add_child_eq f ns c p x n nx R P C A En Ex) as (lc & _ & -> & O).
  pose proof (kids_empty_unless f ns x R Rx) as Xout.
  pose proof (rep_root _ _ R _ _ Ex Rx) as Nx0.
  assert (x <> 0) as Xnz by lia. assert (x <> p) as Xp by lia.
  unfold f_link. destruct (Nat.eqb_spec p 0); [done|].
  set (ns1 := <[x:=set_parent nx p]> ns) in *.
  assert (length ns1 = length ns) as Len1 by apply insert_length.
  assert (ns1 !! p = Some n) as En1 by (unfold ns1; rewrite list_lookup_insert_ne; [done|lia]).
  assert (ns1 !! x = Some (set_parent nx p)) as Ex1 by (unfold ns1; rewrite list_lookup_insert; [done|rewrite (rep_len _ _ R); lia]).
  (* the fields of the new table, uniformly *)
  eexists; split; [reflexivity|].
  set (ns2 := match f_kids f p with [] => _ | _ => _ end).
  assert (length ns2 = length ns /\
    forall i m, ns !! i = Some m -> exists m', ns2 !! i = Some m' /\
      parent m' = (if Nat.eqb i x then p else parent m) /\
      first_child m' = (if Nat.eqb i p then match f_kids f p with [] => x | _ => first_child m end else first_child m) /\
      next m' = match last (f_kids f p) with None => next m | Some z => if Nat.eqb i z then x else next m end) as [Len2 Fld].
  { unfold ns2. destruct (last (f_kids f p)) as [z|] eqn:Lz.
    - assert (lc = z) as ->.
      { destruct O as (_ & _ & O3 & [[? _]|H]); [done|]. specialize (Hit _ H O3). congruence. }
      destruct O as (Oz & Oz1 & _). destruct (f_kids f p) as [|k0 ks]; [done|].
      destruct (lookup_lt_is_Some_2 ns z) as [nz Ez]; [by rewrite (rep_len _ _ R)|].
      assert (ns1 !! z = Some nz) as Ez1 by (unfold ns1; rewrite list_lookup_insert_ne; [done|congruence]).
      rewrite Ez1. split; [by rewrite insert_length|]. intros i m Ei.
      destruct (Nat.eqb_spec i z) as [->|Nz].
      + rewrite list_lookup_insert by (rewrite Len1, (rep_len _ _ R); lia). rewrite Ez in Ei. injection Ei as <-.
        destruct (Nat.eqb_spec z x); [done|]. eexists; split; [reflexivity|]. cbn. repeat split. by destruct (Nat.eqb z p).
      + rewrite list_lookup_insert_ne by congruence. destruct (Nat.eqb_spec i x) as [->|Ni].
        * rewrite Ex1. rewrite Ex in Ei. injection Ei as <-. eexists; split; [reflexivity|]. cbn. destruct (Nat.eqb_spec x p); done.
        * unfold ns1. rewrite list_lookup_insert_ne by congruence. exists m. repeat split; [done|]. by destruct (Nat.eqb i p).
    - apply last_None in Lz. rewrite Lz. split; [by rewrite insert_length|]. intros i m Ei.
      destruct (Nat.eqb_spec i p) as [->|Nz].
      + rewrite list_lookup_insert by (rewrite Len1, (rep_len _ _ R); lia). rewrite En in Ei. injection Ei as <-.
        destruct (Nat.eqb_spec p x); [lia|]. eexists; split; [reflexivity|]. done.
      + rewrite list_lookup_insert_ne by congruence. destruct (Nat.eqb_spec i x) as [->|Ni].
        * rewrite Ex1. rewrite Ex in Ei. injection Ei as <-. eexists; split; [reflexivity|]. done.
        * unfold ns1. rewrite list_lookup_insert_ne by congruence. exists m. done. }
  clearbody ns2. clear O.
  assert (forall i m', ns2 !! i = Some m' -> exists m, ns !! i = Some m) as Back.
  { intros i m' Ei. apply lookup_lt_is_Some_2. rewrite <- Len2. by eapply lookup_lt_Some. }
  constructor; cbn.
  - rewrite Len2. apply R.
  - apply R.
  - intros i m' Ei. destruct (Back _ _ Ei) as [m Em]. destruct (Fld _ _ Em) as (m2 & E2 & Hp & _).
    rewrite Ei in E2. injection E2 as <-. rewrite Hp. unfold fset. destruct (Nat.eqb i x); [done|]. by apply R.
  - intros i m' Ei. destruct (Back _ _ Ei) as [m Em]. destruct (Fld _ _ Em) as (m2 & E2 & _ & Hf & _).
    rewrite Ei in E2. injection E2 as <-. rewrite Hf. clear Hf.
    pose proof (rep_kids _ _ R _ _ Em) as L.
    unfold fset. destruct (Nat.eqb_spec i p) as [->|Ni].
    + destruct (last (f_kids f p)) as [z|] eqn:Lz.
      * apply last_Some in Lz as [l Ez]. rewrite Ez in L |- *.
        assert (match l ++ [z] with [] => x | _ => first_child m end = first_child m) as -> by (by destruct l).
        assert (NoDup (l ++ [z])) as ND by (rewrite <- Ez; apply R).
        rewrite <- app_assoc. cbn.
        assert (z ∈ f_kids f p) as Iz by (rewrite Ez; set_solver).
        assert (z < length ns) as Sz. { apply (rep_in _ _ R) in Iz as [Hz ?]. rewrite (rep_len _ _ R). apply (rep_lt _ _ R). congruence. }
        destruct (lookup_lt_is_Some_2 ns z Sz) as [nz Enz].
        destruct (Fld _ _ Enz) as (nz' & Enz' & _ & _ & Hn). rewrite Nat.eqb_refl in Hn.
        destruct (Fld _ _ Ex) as (nx' & Ex' & _ & _ & Hnx). destruct (Nat.eqb_spec x z) as [->|]; [by apply Xout in Iz|].
        (* transport along the links only *)
        assert (forall h l0, linked ns h (l0 ++ [z]) -> NoDup (l0 ++ [z]) -> linked ns2 h (l0 ++ [z; x])) as G.
        { intros h l0; revert h; induction l0 as [|y l0 IH]; intros h H D; cbn in H |- *.
          - destruct H as (-> & ? & _). split; [done|]. split; [done|]. exists nz'. split; [done|]. rewrite Hn. split; [done|]. split; [done|].
            exists nx'. split; [done|]. by rewrite Hnx.
          - destruct H as (-> & ? & ny & Ey & H). split; [done|]. split; [done|].
            destruct (Fld _ _ Ey) as (ny' & Ey' & _ & _ & Hny). exists ny'. split; [done|]. inversion D; subst.
            destruct (Nat.eqb_spec y z) as [->|]; [set_solver|]. rewrite Hny. by apply IH. }
        by apply G.
      * apply last_None in Lz. rewrite Lz in L |- *. cbn. split; [done|]. split; [done|].
        destruct (Fld _ _ Ex) as (nx' & Ex' & _ & _ & Hnx). exists nx'. split; [done|]. by rewrite Hnx.
    + assert (forall y, y ∈ f_kids f i -> last (f_kids f p) <> Some y) as Dis.
      { intros y I [l Ez]%last_Some. apply (rep_in _ _ R) in I as [I _].
        assert (y ∈ f_kids f p) as [I2 _]%(rep_in _ _ R) by (rewrite Ez; set_solver). congruence. }
      eapply linked_frame; [|exact L]. intros y ny Iy Ey.
      destruct (Fld _ _ Ey) as (ny' & Ey' & _ & _ & Hny). exists ny'. split; [done|]. rewrite Hny.
      destruct (last (f_kids f p)) as [z|] eqn:Lz; [|done]. destruct (Nat.eqb_spec y z) as [->|]; [|done]. by destruct (Dis z Iy).
  - intros q y. unfold fset. destruct (Nat.eqb_spec q p) as [->|Nq].
    + rewrite elem_of_app, elem_of_list_singleton, (rep_in _ _ R). destruct (Nat.eqb_spec y x) as [->|]; [|naive_solver].
      split; [done|]. by right.
    + rewrite (rep_in _ _ R). destruct (Nat.eqb_spec y x) as [->|]; [|done]. rewrite Rx. split; intros [? ?]; congruence.
  - intros i m' Ei. destruct (Back _ _ Ei) as [m Em]. destruct (Fld _ _ Em) as (m2 & E2 & _ & _ & Hn).
    rewrite Ei in E2. injection E2 as <-. unfold fset. destruct (Nat.eqb_spec i x) as [->|]; [done|]. intros Z.
    rewrite Hn. destruct (last (f_kids f p)) as [z|] eqn:Lz; [|by eapply R]. destruct (Nat.eqb_spec i z) as [->|]; [|by eapply R].
    apply last_Some in Lz as [l Ez]. assert (z ∈ f_kids f p) as [I2 _]%(rep_in _ _ R) by (rewrite Ez; set_solver). congruence.
  - intros y. unfold fset. destruct (Nat.eqb_spec y x) as [->|]; [lia|]. apply R.
  - intros q. unfold fset. destruct (Nat.eqb_spec q p) as [->|]; [|apply R].
    apply NoDup_app. split; [apply R|]. split; [|apply NoDup_singleton]. intros y I ->%elem_of_list_singleton. by apply Xout in I.
Qed.

(** The attachment is right exactly when the node met on the way up from the
    cached node, if any, is the last child. *)
Lemma linked_break ns ns' h l z l2 x : linked ns h (l ++ z :: l2) -> NoDup (l ++ z :: l2) ->
  (forall y n, y ∈ l -> ns !! y = Some n -> exists n', ns' !! y = Some n' /\ next n' = next n) ->
  (exists n', ns' !! z = Some n' /\ next n' = x) -> (exists n', ns' !! x = Some n' /\ next n' = 0) -> x <> 0 ->
  linked ns' h (l ++ [z; x]).
Proof.
  revert h; induction l as [|y l IH]; intros h L N Fr (n' & E' & Nz) (nx & Ex & Zx) X; cbn in L |- *.
  - destruct L as (-> & ? & _). split; [done|]. split; [done|]. exists n'. split; [done|]. rewrite Nz. split; [done|]. split; [done|]. eauto.
  - destruct L as (-> & ? & m & E & L). split; [done|]. split; [done|].
    destruct (Fr y m) as (m' & Em' & Nm); [by left|done|]. exists m'. split; [done|]. rewrite Nm. inversion N; subst.
    apply IH; [done|done| |by eauto|by eauto|done]. intros. apply Fr; [by right|done].
Qed.

Lemma add_child_wrong f ns c p x y : rep f ns -> p <> 0 -> c < f_size f -> attachable f p x ->
  anc (f_par f) c y -> f_par f y = p -> last (f_kids f p) <> Some y ->
  exists ns' l, add_child (Ptrs ns c) p x = Some (Ptrs ns' x) /\ children ns' p = Some l /\ length l <= length (f_kids f p).
Proof.
  intros R P C A Hy Py Ly. pose proof A as (Px & Sx & Rx).
  destruct (lookup_lt_is_Some_2 ns p) as [n En]; [rewrite (rep_len _ _ R); lia|].
  destruct (lookup_lt_is_Some_2 ns x) as [nx Ex]; [rewrite (rep_len _ _ R); lia|].
  destruct (add_child_eq f ns c p x n nx R P C A En Ex) as (lc & _ & -> & O).
  pose proof (rep_root _ _ R _ _ Ex Rx) as Nx0.
  assert (y ∈ f_kids f p) as Iy by (by apply (rep_in _ _ R)).
  destruct (last (f_kids f p)) as [z|] eqn:Lz; [|apply last_None in Lz; rewrite Lz in Iy; set_solver].
  destruct O as (O1 & O2 & O3 & O4).
  assert (lc = y) as ->.
  { destruct O4 as [[_ H]|H]; [by destruct (H y Hy)|]. eapply (anc_parent_unique f ns R c); congruence. }
  destruct (lookup_lt_is_Some_2 ns y) as [ny Ey]; [by rewrite (rep_len _ _ R)|].
  assert (<[x:=set_parent nx p]> ns !! y = Some ny) as Ey1 by (rewrite list_lookup_insert_ne; [done|congruence]).
  cbn zeta. rewrite Ey1.
  apply elem_of_list_split in Iy as (l & l2 & K).
  assert (l2 <> []) as Nl2. { intros ->. apply Ly. rewrite K, last_snoc in Lz. congruence. }
  set (ns2 := match f_kids f p with [] => _ | _ => _ end).
  assert (ns2 = <[y := set_next ny x]> (<[x:=set_parent nx p]> ns)) as Es by (unfold ns2; rewrite K; by destruct l).
  exists ns2, (l ++ [y; x]). rewrite Es. clear Es. clearbody ns2. split; [done|]. split; [|rewrite K, !app_length; destruct l2; cbn in *; [done|lia]].
  unfold children.
  assert (y <> p) as Nyp by (intros ->; pose proof (rep_lt _ _ R p ltac:(congruence)); lia).
  assert (<[y:=set_next ny x]> (<[x:=set_parent nx p]> ns) !! p = Some n) as En2 by (rewrite !list_lookup_insert_ne; [done|lia|done]).
  rewrite (rd_lu _ _ _ En2). cbn -[walk_next].
  pose proof (rep_kids _ _ R _ _ En) as L. rewrite K in L. pose proof (rep_nodup _ _ R p) as ND. rewrite K in ND.
  apply linked_walk.
  - eapply linked_break; [exact L|exact ND|..].
    + intros w nw Iw Ew. exists nw. assert (w ≠ y) by (intros ->; apply NoDup_app in ND as (_ & ND & _); apply (ND y Iw); left).
      assert (w <> x). { intros ->. assert (x ∈ f_kids f p) as [? _]%(rep_in _ _ R) by (rewrite K; set_solver). congruence. }
      rewrite !list_lookup_insert_ne by congruence. done.
    + exists (set_next ny x). split; [|done]. rewrite list_lookup_insert; [done|]. rewrite insert_length, (rep_len _ _ R). lia.
    + exists (set_parent nx p). rewrite list_lookup_insert_ne by done. rewrite list_lookup_insert; [done|]. rewrite (rep_len _ _ R). lia.
    + lia.
  - rewrite !insert_length. pose proof (nodup_bounded _ (length ns) ND (linked_le _ _ _ L)) as B.
    rewrite app_length in B |- *. destruct l2; cbn in *; [done|lia].
Qed.

Lemma add_child_exact f ns c p x : rep f ns -> p <> 0 -> c < f_size f -> attachable f p x ->
  (exists ns', add_child (Ptrs ns c) p x = Some (Ptrs ns' x) /\ children ns' p = Some (f_kids f p ++ [x])) <->
  (forall y, anc (f_par f) c y -> f_par f y = p -> last (f_kids f p) = Some y).
Proof.
  intros R P C A. split.
  - intros (ns' & E & Ch) y Hy Py. destruct (decide (last (f_kids f p) = Some y)) as [|N]; [done|].
    destruct (add_child_wrong f ns c p x y R P C A Hy Py N) as (ns2 & l & E2 & Ch2 & Ll).
    rewrite E in E2. injection E2 as <-. rewrite Ch in Ch2. injection Ch2 as <-. rewrite app_length in Ll. cbn in Ll. lia.
  - intros Hit. destruct (add_child_ok f ns c p x R P C A Hit) as (ns' & E & R'). exists ns'. split; [done|].
    rewrite (rep_children _ _ p R').
    + unfold f_link. destruct (Nat.eqb_spec p 0); [done|]. cbn. by rewrite fset_same.
    + destruct A as (? & ? & ?). unfold f_link. destruct (Nat.eqb p 0); cbn; lia.
Qed.

(** ** Histories *)
(** Along the way from the cached node up to the focus every node is the last
    child of its parent. *)
Record hinv (f : forest) (c t : nat) : Prop := {
  h_size : c < f_size f;
  h_t : t < f_size f;
  h_anc : c <> 0 -> anc (f_par f) c t;
  h_zero : c = 0 -> t = 0;
  h_right : forall y, c <> 0 -> anc (f_par f) c y -> anc (f_par f) y t -> y <> t -> last (f_kids f (f_par f y)) = Some y }.

Lemma hinv_hit f ns c t p y : rep f ns -> hinv f c t -> p <> 0 -> ~ (p <> t /\ anc (f_par f) t p) ->
  anc (f_par f) c y -> f_par f y = p -> last (f_kids f p) = Some y.
Proof.
  intros R H P N A Py. assert (c <> 0) as C.
  { intros ->. apply (anc_zero f ns R) in A as ->. rewrite (par_zero f ns R) in Py. congruence. }
  assert (anc (f_par f) y p) as Yp by (rewrite <- Py; apply anc_up; [congruence|constructor]).
  pose proof (anc_trans _ _ _ _ A Yp) as Cp.
  pose proof (rep_lt _ _ R y ltac:(congruence)) as [Ly _].
  rewrite <- Py. apply (h_right _ _ _ H); [done|done|..].
  - apply (anc_trans _ _ _ _ Yp). destruct (anc_total _ _ _ _ Cp (h_anc _ _ _ H C)) as [|B]; [done|].
    destruct (Nat.eq_dec p t) as [->|]; [constructor|]. by destruct N.
  - intros ->. apply N. split; [lia|done].
Qed.

Lemma anc_fset par x p y z : par x = 0 -> anc par y z -> anc (fset par x p) y z.
Proof.
  intros X. induction 1 as [|y z N A IH]; [constructor|]. apply anc_up; rewrite fset_other; congruence.
Qed.

(** Paths from nodes other than the new one and not below it are the same. *)
Lemma anc_fset_inv f ns x p y z : rep f ns -> f_par f x = 0 -> p < x -> y < x -> anc (fset (f_par f) x p) y z -> anc (f_par f) y z.
Proof.
  intros R X Px Y A. revert Y. induction A as [|y z N A IH]; [constructor|]. intros Y.
  rewrite fset_other in N, IH by lia. apply anc_up; [done|]. apply IH. pose proof (rep_lt _ _ R y N). lia.
Qed.

Lemma hist_ok os f c t : hist os f c t ->
  exists ns, pop_run ptrs_init os = Some (Ptrs ns c) /\ rep f ns /\ hinv f c t.
Proof.
  assert (forall os o p, pop_run ptrs_init os = Some p -> pop_run ptrs_init (os ++ [o]) = pop_step p o) as Snoc.
  { intros os' o p. generalize ptrs_init. induction os' as [|o' os' IH]; intros q; cbn.
    - intros [= ->]. by destruct (pop_step p o).
    - destruct (pop_step q o') as [q'|]; cbn; [apply IH|done]. }
  induction 1 as [|os f c t H IH|os f c t x H IH A|os f c t p x t' H IH P A N T|os f c t p x t' H IH P S L N T|os f c t p H IH S K].
  - exists [fresh_node]. split; [done|]. split.
    + constructor; cbn; try lia; try done.
      * intros i n E. apply list_lookup_singleton_Some in E as [_ <-]. done.
      * intros i n E. apply list_lookup_singleton_Some in E as [_ <-]. done.
      * intros p c. split; [by intros ?%elem_of_nil|intros [? ?]; congruence].
      * intros i n E _. apply list_lookup_singleton_Some in E as [_ <-]. done.
      * intros _. constructor.
    + constructor; cbn; try lia; done.
  - destruct IH as (ns & E & R & I). exists (ns ++ [fresh_node]). split; [by rewrite (Snoc _ _ _ E)|].
    assert (forall p, p >= f_size f -> f_par f p = 0) as Out.
    { intros p Hp. destruct (Nat.eq_dec (f_par f p) 0) as [|Z]; [done|]. pose proof (rep_lt _ _ R p Z). lia. }
    split.
    + constructor; cbn.
      * rewrite app_length, (rep_len _ _ R). cbn. lia.
      * lia.
      * intros i n [Ei|[Hi Ei]]%lookup_app_Some; [by apply R|]. apply list_lookup_singleton_Some in Ei as [? <-].
        rewrite Out; [done|]. rewrite <- (rep_len _ _ R). lia.
      * intros i n [Ei|[Hi Ei]]%lookup_app_Some.
        -- eapply linked_frame; [|by eapply R]. intros y m _ Ey. exists m. split; [|done]. by apply lookup_app_l_Some.
        -- apply list_lookup_singleton_Some in Ei as [? <-]. assert (f_kids f i = []) as ->; [|done].
           destruct (f_kids f i) as [|k ks] eqn:K; [done|]. assert (k ∈ f_kids f i) as [Hk Hi0]%(rep_in _ _ R) by (rewrite K; left).
           pose proof (rep_lt _ _ R k ltac:(congruence)). rewrite (rep_len _ _ R) in Hi. lia.
      * apply R.
      * intros i n [Ei|[Hi Ei]]%lookup_app_Some; [by eapply R|]. by apply list_lookup_singleton_Some in Ei as [? <-].
      * intros y Z. pose proof (rep_lt _ _ R y Z). lia.
      * apply R.
    + destruct I as [I1 I2 I3 I4 I5]. constructor; cbn; [lia|lia|done|done|done].
  - destruct IH as (ns & E & R & I). destruct (add_child_root f ns c x R A) as (ns' & E' & R').
    exists ns'. split; [by rewrite (Snoc _ _ _ E)|]. split; [done|]. destruct A as (? & ? & ?).
    constructor; [done|done|constructor|lia|]. intros y _ Hx Hy Ne.
    apply (anc_le f ns R) in Hx, Hy. lia.
  - destruct IH as (ns & E & R & I).
    destruct (add_child_ok f ns c p x R P (h_size _ _ _ I) A) as (ns' & E' & R').
    { intros y Hy Py. by eapply hinv_hit. }
    exists ns'. split; [by rewrite (Snoc _ _ _ E)|]. split; [done|].
    destruct A as (Px & Sx & Rx). revert R'. unfold f_link. destruct (Nat.eqb_spec p 0); [done|]. intros R'.
    assert (fset (f_par f) x p x = p) as Fx by apply fset_same.
    assert (anc (fset (f_par f) x p) x p) as Xp by (apply anc_up; rewrite Fx; [done|constructor]).
    assert (t' < f_size f /\ anc (f_par f) p t') as [St' Pt'].
    { destruct T as [(Cp & C & ->)|[_ ->]]; [|split; [lia|constructor]]. split; [apply I|].
      destruct (anc_total _ _ _ _ Cp (h_anc _ _ _ I C)) as [|B]; [done|].
      destruct (Nat.eq_dec p t) as [->|]; [constructor|]. by destruct N. }
    constructor; cbn; [done|done| |lia|].
    + intros _. apply (anc_trans _ _ _ _ Xp). by apply anc_fset.
    + intros y _ Hx Hy Ne. inversion Hx; subst.
      { rewrite Fx, fset_same. apply last_snoc. }
      rewrite Fx in *. assert (p < x) by lia.
      apply (anc_fset_inv f ns) in H1; [|done..]. pose proof (anc_le f ns R _ _ H1).
      apply (anc_fset_inv f ns) in Hy; [|done|done|lia|lia].
      rewrite (fset_other _ x p y) by lia.
      destruct (Nat.eq_dec y p) as [->|Nyp].
      * destruct T as [(Cp & C & ->)|[_ ->]]; [|done]. rewrite fset_other.
        -- by apply (h_right _ _ _ I).
        -- inversion Hy as [|? ? Z0 ?]; subst; [done|]. pose proof (rep_lt _ _ R p Z0). lia.
      * assert (f_par f y <> p) as Nq.
        { intros Q. pose proof (rep_lt _ _ R y ltac:(congruence)). lia. }
        rewrite fset_other by done.
        destruct T as [(Cp & C & ->)|[_ ->]].
        -- apply (h_right _ _ _ I); [done|by eapply anc_trans|done|done].
        -- apply (anc_le f ns R) in Hy. lia.
  - destruct IH as (ns & E & R & I).
    destruct (last_child_ok f ns R c p (h_size _ _ _ I) P S) as (x' & El & O). rewrite L in O.
    assert (x' = x) as ->.
    { destruct O as [[-> _]|[O1 O2]]; [done|]. pose proof (hinv_hit f ns c t p x' R I P N O1 O2). congruence. }
    exists ns. rewrite (Snoc _ _ _ E). cbn. rewrite El. cbn.
    assert (x ∈ f_kids f p) as [Px _]%(rep_in _ _ R) by (apply last_Some in L as [l ->]; set_solver).
    pose proof (rep_lt _ _ R x ltac:(congruence)) as [? ?].
    split; [by destruct (f_kids f p)|]. split; [done|].
    assert (anc (f_par f) x p) as Xp by (apply anc_up; rewrite Px; [done|constructor]).
    assert (t' < f_size f /\ anc (f_par f) p t') as [St' Pt'].
    { destruct T as [(Cp & C & ->)|[_ ->]]; [|split; [lia|constructor]]. split; [apply I|].
      destruct (anc_total _ _ _ _ Cp (h_anc _ _ _ I C)) as [|B]; [done|].
      destruct (Nat.eq_dec p t) as [->|]; [constructor|]. by destruct N. }
    constructor; [done|done| |lia|].
    + intros _. by eapply anc_trans.
    + intros y _ Hx Hy Ne. inversion Hx as [|? ? Z0 Hpy]; subst; [done|].
      destruct T as [(Cp & C & ->)|[_ ->]].
      * apply (h_right _ _ _ I); [done|by eapply anc_trans|done|done].
      * apply (anc_le f ns R) in Hy. apply (anc_le f ns R) in Hpy. lia.
  - destruct IH as (ns & E & R & I). exists ns. rewrite (Snoc _ _ _ E). split; [|done]. cbn.
    destruct (Nat.eq_dec p 0) as [->|P]; [done|].
    destruct (last_child_ok f ns R c p (h_size _ _ _ I) P S) as (x' & El & O). rewrite El, K. done.
Qed.

(** Deciding ancestry in examples. *)
Fixpoint chain (fuel : nat) (par : nat -> nat) (x : nat) : option (list nat) :=
  match fuel with
  | O => None
  | S fuel => if Nat.eqb (par x) 0 then Some [x] else l ← chain fuel par (par x); Some (x :: l)
  end.
Lemma chain_anc par fuel : forall x l y, chain fuel par x = Some l -> anc par x y <-> y ∈ l.
Proof.
  induction fuel as [|fuel IH]; intros x l y; [done|]. cbn. destruct (Nat.eqb_spec (par x) 0) as [Z|Z].
  - intros [= <-]. rewrite elem_of_list_singleton. split; [|intros ->; constructor]. intros A. by inversion A.
  - destruct (chain fuel par (par x)) as [l'|] eqn:E; [|done]. cbn. intros [= <-]. rewrite elem_of_cons, <- (IH _ _ y E). split.
    + intros A. inversion A; subst; auto.
    + intros [->|A]; [constructor|by apply anc_up].
Qed.
Lemma chain_in par x y l : chain 20 par x = Some l -> bool_decide (y ∈ l) = true -> anc par x y.
Proof. intros E B. apply (chain_anc par 20 x l y E). by apply bool_decide_eq_true in B. Qed.
Lemma chain_out par x y l : chain 20 par x = Some l -> bool_decide (y ∈ l) = false -> ~ anc par x y.
Proof. intros E B A. apply (chain_anc par 20 x l y E) in A. by apply bool_decide_eq_false in B. Qed.
Ltac anc_yes := eapply chain_in; [vm_compute; reflexivity|vm_compute; reflexivity].
Ltac anc_no := eapply chain_out; [vm_compute; reflexivity|vm_compute; reflexivity].
Ltac hist_side := first
  [ done | (repeat split; cbn; lia) | (left; split; [anc_yes|split; done]) | (right; split; [anc_no|done])
  | (intros [? A]; revert A; first [anc_no|done]) ].
