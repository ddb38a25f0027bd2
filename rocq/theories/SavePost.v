(** Post-processing in mr_save (src/mr_save.c:1386-1493): references of void pointers and strings. *)
From stdpp Require Import sets.
From Verif Require Import Base Ptrs ChildrenProof DfsProof Save SaveForest SaveSpec SaveInv SaveSteps.
Local Open Scope Z_scope.

Definition sameI (x x' : info) : Prop :=
  i_data x' = i_data x /\ i_type x' = i_type x /\ i_fdp x' = i_fdp x /\ i_aux x' = i_aux x /\ i_unnamed x' = i_unnamed x /\ i_chain x' = i_chain x.
Definition sameL (n n' : node) : Prop :=
  parent n' = parent n /\ next n' = next n /\ (referenced n = true -> referenced n' = true).
Lemma sameI_trans x y z : sameI x y -> sameI y z -> sameI x z.
Proof. unfold sameI. intuition congruence. Qed.
Lemma sameL_trans x y z : sameL x y -> sameL y z -> sameL x z.
Proof. unfold sameL. intros (? & ? & ?) (? & ? & ?). do 2 (split; [congruence|]). auto. Qed.

(** A step for node [i]: of other nodes only the flag MR_IS_REFERENCED changes. *)
Record frm (i : nat) (a b : sst) : Prop := {
  r_len : length (s_info b) = length (s_info a);
  r_lenl : length (lns b) = length (lns a);
  r_heads : s_heads b = s_heads a;
  r_info : forall j x, s_info a !! j = Some x -> exists x', s_info b !! j = Some x' /\ sameI x x' /\
    (j <> i -> i_null x' = i_null x /\ i_cref x' = i_cref x);
  r_link : forall j n, lns a !! j = Some n -> exists n', lns b !! j = Some n' /\ sameL n n' /\
    (j <> i -> is_ref n' = is_ref n /\ first_child n' = first_child n) }.
Lemma frm_refl i a : frm i a a.
Proof. constructor; try done; intros j x E; exists x; repeat split; auto. Qed.
Lemma frm_trans i a b c : frm i a b -> frm i b c -> frm i a c.
Proof.
  intros A B. constructor.
  - rewrite (r_len _ _ _ B). apply A.
  - rewrite (r_lenl _ _ _ B). apply A.
  - rewrite (r_heads _ _ _ B). apply A.
  - intros j x E. destruct (r_info _ _ _ A _ _ E) as (y & Ey & Sy & Ny). destruct (r_info _ _ _ B _ _ Ey) as (z & Ez & Sz & Nz).
    exists z. split; [done|]. split; [by eapply sameI_trans|]. intros N. destruct (Ny N), (Nz N). split; congruence.
  - intros j x E. destruct (r_link _ _ _ A _ _ E) as (y & Ey & Sy & Ny). destruct (r_link _ _ _ B _ _ Ey) as (z & Ez & Sz & Nz).
    exists z. split; [done|]. split; [by eapply sameL_trans|]. intros N. destruct (Ny N), (Nz N). split; congruence.
Qed.

Lemma frm_info st i x x' : s_info st !! i = Some x -> sameI x x' -> frm i st (SSt (s_ptrs st) (<[i := x']> (s_info st)) (s_heads st)).
Proof.
  intros E H. constructor; cbn; [by rewrite insert_length|done|done| |].
  - intros j y Ey. destruct (Nat.eq_dec j i) as [->|N].
    + rewrite list_lookup_insert by (by eapply lookup_lt_Some). exists x'. rewrite E in Ey. injection Ey as <-. done.
    + rewrite list_lookup_insert_ne by done. exists y. done.
  - intros j n En. exists n. done.
Qed.
Lemma frm_link st i k n n' : lns st !! k = Some n -> sameL n n' -> (k <> i -> is_ref n' = is_ref n /\ first_child n' = first_child n) ->
  frm i st (SSt (Ptrs (<[k := n']> (lns st)) (cache (s_ptrs st))) (s_info st) (s_heads st)).
Proof.
  intros E H N. constructor; cbn; [done|by rewrite insert_length|done| |].
  - intros j y Ey. exists y. done.
  - intros j m Em. destruct (Nat.eq_dec j k) as [->|Nj].
    + rewrite list_lookup_insert by (by eapply lookup_lt_Some). exists n'. rewrite E in Em. injection Em as <-. done.
    + rewrite list_lookup_insert_ne by done. exists m. repeat split; auto.
Qed.

(** The biggest of the nodes on a chain. *)
Lemma bucket_ok fuel st a h best r : bucket_loop fuel st a h best = Some r ->
  (best <> 0%nat -> exists x, s_info st !! best = Some x /\ i_data x = a) ->
  (r <> 0%nat -> exists x, s_info st !! r = Some x /\ i_data x = a) /\
  (r = 0%nat -> best = 0%nat /\ forall i x, reach (s_info st) h i -> s_info st !! i = Some x -> i_data x <> a).
Proof.
  revert h best; induction fuel as [|fuel IH]; intros h best H Hb; [done|]. cbn in H. destruct (Nat.eqb_spec h 0) as [->|Nh].
  { injection H as <-. split; [done|]. intros ->. split; [done|]. intros i x R. inversion R; subst; done. }
  unfold rd in H. destruct (s_info st !! h) as [x|] eqn:E; [|done]. cbn in H.
  assert (forall i y, reach (s_info st) h i -> s_info st !! i = Some y -> i = h \/ reach (s_info st) (i_chain x) i) as Rh.
  { intros i y R Ey. inversion R as [|h' x' i' ? Ex' R']; subst; [by left|]. rewrite E in Ex'. injection Ex' as <-. by right. }
  destruct (Z.eqb_spec (i_data x) a) as [Ea|Na].
  - assert (h <> 0%nat -> exists x, s_info st !! h = Some x /\ i_data x = a) as Hh by eauto.
    destruct (Nat.eqb_spec best 0) as [Eb|Nb].
    + apply IH in H as [H1 H2]; [|done]. split; [done|]. intros Er. destruct (H2 Er) as [? _]. done.
    + destruct (Hb Nb) as (y & Ey & Dy). rewrite Ey in H. cbn in H. apply IH in H as [H1 H2]; [|destruct (i_size y <? i_size x); eauto].
      split; [done|]. intros Er. destruct (H2 Er) as [Q _]. destruct (i_size y <? i_size x); done.
  - apply IH in H as [H1 H2]; [|done]. split; [done|]. intros Er. destruct (H2 Er) as [Q1 Q2]. split; [done|]. intros i y R Ey.
    destruct (Rh i y R Ey) as [-> |R']; [congruence|eauto].
Qed.

Section Post.
  Context (W : world) (s0 : sst).

  Definition voidp (x : info) : bool := (i_type x =? T_POINTER) && ((i_aux x =? T_NONE) || (i_aux x =? T_VOID)) && negb (i_null x).
  Definition refd (st : sst) (r : nat) : Prop := exists n, lns st !! r = Some n /\ referenced n = true.
  (** Of the nodes in [s0]: the parent is a string. *)
  Definition in_string (r : nat) : bool :=
    negb (Nat.eqb (parf (lns s0) r) 0) && match s_info s0 !! parf (lns s0) r with Some q => i_type q =? T_STRING | None => false end.
  Definition points (st : sst) (x : info) (n : node) (r : nat) : Prop :=
    if in_string r then first_child n = parf (lns s0) r /\ i_cref x = true /\ refd st (parf (lns s0) r)
    else first_child n = r /\ i_cref x = false /\ refd st r.
  Definition fin (st : sst) (x0 : info) (n0 : node) (x : info) (n : node) : Prop :=
    if voidp x0 then
      i_null x = true /\ exists p, w_ptr W (i_data x0) = Some p /\
      (is_ref n = true /\ (exists r xr, r <> 0%nat /\ s_info s0 !! r = Some xr /\ i_data xr = p /\ points st x n r) \/
       is_ref n = false /\ first_child n = 0%nat /\ i_cref x = false /\
         forall r xr, r <> 0%nat -> s_info s0 !! r = Some xr -> i_data xr <> p)
    else i_null x = i_null x0 /\
      if is_ref n0 then is_ref n = true /\ points st x n (first_child n0)
      else is_ref n = false /\ i_cref x = false /\ first_child n = if i_type x0 =? T_STRING then 0%nat else first_child n0.

  Record PR (st : sst) (i : nat) : Prop := {
    p_len : length (s_info st) = length (s_info s0);
    p_lenl : length (lns st) = length (lns s0);
    p_heads : s_heads st = s_heads s0;
    p_info : forall j x0 n0, s_info s0 !! j = Some x0 -> lns s0 !! j = Some n0 -> exists x n,
      s_info st !! j = Some x /\ lns st !! j = Some n /\ sameI x0 x /\ sameL n0 n /\
      (j = 0%nat \/ (i <= j)%nat -> i_null x = i_null x0 /\ i_cref x = i_cref x0 /\ is_ref n = is_ref n0 /\ first_child n = first_child n0) /\
      (j <> 0%nat -> (j < i)%nat -> fin st x0 n0 x n) }.

  Lemma refd_frm i a b r : frm i a b -> refd a r -> refd b r.
  Proof. intros F (n & E & R). destruct (r_link _ _ _ F _ _ E) as (n' & E' & (_ & _ & Rn) & _). exists n'. auto. Qed.
  Lemma points_frm i a b x n x' n' r : frm i a b -> i_cref x' = i_cref x -> first_child n' = first_child n -> points a x n r -> points b x' n' r.
  Proof.
    intros F C E. unfold points. rewrite C, E. destruct (in_string r); intros (? & ? & ?); (do 2 (split; [done|])); by eapply refd_frm.
  Qed.
  Lemma fin_frm i a b x0 n0 x n x' n' : frm i a b -> i_null x' = i_null x -> i_cref x' = i_cref x -> is_ref n' = is_ref n ->
    first_child n' = first_child n -> fin a x0 n0 x n -> fin b x0 n0 x' n'.
  Proof.
    intros F N C R E H. unfold fin in *. rewrite N, R, E. destruct (voidp x0).
    - destruct H as (H1 & p & Hp & H2). split; [done|]. exists p. split; [done|]. destruct H2 as [(Hr & r & xr & A1 & A2 & A3 & A4)|(A1 & A2 & A3 & A4)].
      + left. split; [done|]. exists r, xr. do 3 (split; [done|]). by eapply points_frm.
      + right. rewrite C. done.
    - destruct H as [H1 H2]. split; [done|]. destruct (is_ref n0).
      + destruct H2 as [H2 H3]. split; [done|]. by eapply points_frm.
      + by rewrite C.
  Qed.

  Hypothesis len0 : length (s_info s0) = length (lns s0).
  Hypothesis par0 : forall i, (parf (lns s0) i < length (lns s0))%nat.
  Hypothesis chain0 : forall i x, i <> 0%nat -> s_info s0 !! i = Some x -> reach (s_info s0) (s_heads s0 (key (i_data x))) i.
  Hypothesis cref0 : forall i x, i <> 0%nat -> s_info s0 !! i = Some x -> i_cref x = false.
  Hypothesis void0 : forall i x n, i <> 0%nat -> s_info s0 !! i = Some x -> lns s0 !! i = Some n -> voidp x = true -> is_ref n = false /\ first_child n = 0%nat.
  Hypothesis ref0 : forall i n, lns s0 !! i = Some n -> is_ref n = true -> refd s0 (first_child n).

  Lemma PR_step st st' i x0 n0 x n : PR st i -> i <> 0%nat -> frm i st st' ->
    s_info s0 !! i = Some x0 -> lns s0 !! i = Some n0 -> s_info st' !! i = Some x -> lns st' !! i = Some n ->
    fin st' x0 n0 x n -> PR st' (S i).
  Proof.
    intros P I F E0 En0 Ex En H. constructor.
    - rewrite (r_len _ _ _ F). apply P.
    - rewrite (r_lenl _ _ _ F). apply P.
    - rewrite (r_heads _ _ _ F). apply P.
    - intros j y0 m0 Ey0 Em0. destruct (p_info _ _ P _ _ _ Ey0 Em0) as (y & m & Ey & Em & Sy & Sm & A & B).
      destruct (r_info _ _ _ F _ _ Ey) as (y' & Ey' & Sy' & Ny). destruct (r_link _ _ _ F _ _ Em) as (m' & Em' & Sm' & Nm).
      exists y', m'. do 2 (split; [done|]). split; [by eapply sameI_trans|]. split; [by eapply sameL_trans|]. split.
      + intros Hj. assert (j <> i) as Nj by (clear -Hj I; lia). destruct (Ny Nj) as [-> ->], (Nm Nj) as [-> ->]. apply A. clear -Hj; lia.
      + intros J Lj. destruct (Nat.eq_dec j i) as [->|Nj].
        * rewrite E0 in Ey0. injection Ey0 as <-. rewrite En0 in Em0. injection Em0 as <-. rewrite Ex in Ey'. injection Ey' as <-. rewrite En in Em'. injection Em' as <-. done.
        * destruct (Ny Nj) as [? ?], (Nm Nj) as [? ?]. eapply fin_frm; [done..|]. apply B; [done|clear -Lj Nj; lia].
  Qed.

  (** References get the string instead of its content. *)
  Lemma content_step st i st' x n r : resolve_content st i = Some st' -> s_info st !! i = Some x -> lns st !! i = Some n ->
    (is_ref n = true -> i_cref x = false /\ first_child n = r /\ refd st r) ->
    (forall j n0, lns s0 !! j = Some n0 -> exists n, lns st !! j = Some n /\ parent n = parent n0) ->
    (forall j x0, s_info s0 !! j = Some x0 -> exists x, s_info st !! j = Some x /\ i_type x = i_type x0) ->
    (forall j n, lns st !! j = Some n -> exists n0, lns s0 !! j = Some n0) ->
    frm i st st' /\ exists x' n', s_info st' !! i = Some x' /\ lns st' !! i = Some n' /\ i_null x' = i_null x /\ is_ref n' = is_ref n /\
      if is_ref n then points st' x' n' r else i_cref x' = i_cref x /\ first_child n' = first_child n.
  Proof.
    intros H Ex En Hr Pl Pi Pb. unfold resolve_content in H. rewrite (rd_lu _ _ _ Ex), (rd_lu _ _ _ En) in H. cbn [mbind option_bind] in H.
    destruct (is_ref n) eqn:Rn; cbn in H.
    2:{ injection H as <-. split; [apply frm_refl|]. exists x, n. done. }
    destruct (Hr eq_refl) as (C & Fr & (nr & Enr & Rr)). rewrite C in H. cbn in H. rewrite Fr, (rd_lu _ _ _ Enr) in H. cbn [mbind option_bind] in H.
    destruct (Pb _ _ Enr) as (nr0 & Enr0). destruct (Pl _ _ Enr0) as (nr' & Enr' & Pr). rewrite Enr in Enr'. injection Enr' as <-.
    pose proof (parf_lu _ _ _ Enr0) as Pf. unfold points, in_string. rewrite Pf, <- Pr.
    destruct (Nat.eqb_spec (parent nr) 0) as [Z|Nz]; cbn.
    { injection H as <-. split; [apply frm_refl|]. exists x, n. do 4 (split; [done|]). split; [done|]. split; [done|]. by exists nr. }
    assert (parf (lns s0) r < length (s_info s0))%nat as Lq by (rewrite len0; apply par0). rewrite Pf, <- Pr in Lq.
    destruct (lookup_lt_is_Some_2 _ _ Lq) as [q0 Eq0]. destruct (Pi _ _ Eq0) as (q & Eq & Tq). rewrite Eq0.
    rewrite (rd_lu _ _ _ Eq) in H. cbn [mbind option_bind] in H. rewrite Tq in H. destruct (Z.eqb_spec (i_type q0) T_STRING) as [Ts|Ns].
    2:{ injection H as <-. split; [apply frm_refl|]. exists x, n. do 4 (split; [done|]). split; [done|]. split; [done|]. by exists nr. }
    rewrite (upd_link_eq _ _ _ _ En) in H. cbn [mbind option_bind] in H. set (n1 := set_first_child n (parent nr)) in *.
    set (st1 := SSt _ _ _) in H.
    assert (frm i st st1) as F1 by (apply (frm_link st i i n); [done| |done]; repeat split; auto).
    rewrite (upd_info_eq st1 i x) in H by done. cbn [mbind option_bind] in H. set (st2 := SSt _ _ _) in H.
    assert (frm i st1 st2) as F2 by (apply (frm_info st1 i x); [done|]; repeat split; auto).
    assert (frm i st st2) as F12 by (by eapply frm_trans).
    assert (parent nr < length (lns s0))%nat as Lq' by (by rewrite <- len0).
    destruct (lookup_lt_is_Some_2 _ _ Lq') as [mq0 Emq0]. destruct (Pl _ _ Emq0) as (mq & Emq & _).
    destruct (r_link _ _ _ F12 _ _ Emq) as (m2 & Em2 & _).
    rewrite (upd_link_eq st2 _ _ _ Em2) in H. injection H as <-. set (st3 := SSt _ _ _).
    assert (frm i st2 st3) as F3 by (apply (frm_link st2 i (parent nr) m2); [done|repeat split; auto|done]).
    split; [by eapply frm_trans|].
    assert (lns st2 !! i = Some n1) as En2 by (cbn; apply list_lookup_insert; by eapply lookup_lt_Some).
    assert (s_info st3 !! i = Some (set_cref x)) as Ex3 by (cbn; apply list_lookup_insert; by eapply lookup_lt_Some).
    destruct (Nat.eq_dec (parent nr) i) as [Ei|Ni].
    - assert (lns st3 !! i = Some (mark_referenced n1)) as En3.
      { unfold st3. cbn [lns ra s_ptrs]. rewrite Ei. rewrite Ei, En2 in Em2. injection Em2 as <-. apply list_lookup_insert. by eapply lookup_lt_Some. }
      exists (set_cref x), (mark_referenced n1). do 4 (split; [done|]). split; [done|]. split; [done|]. exists (mark_referenced n1). rewrite Ei. done.
    - assert (lns st3 !! i = Some n1) as En3.
      { unfold st3. cbn [lns ra s_ptrs]. by rewrite list_lookup_insert_ne. }
      exists (set_cref x), n1. do 4 (split; [done|]). split; [done|]. split; [done|]. exists (mark_referenced m2). split; [|done].
      unfold st3. cbn [lns ra s_ptrs]. apply list_lookup_insert. by eapply lookup_lt_Some.
  Qed.

  Lemma points_mono i a b x n r : frm i a b -> points a x n r -> points b x n r.
  Proof. intros F. by apply (points_frm i). Qed.

  Lemma node_step st i st1 st2 : PR st i -> i <> 0%nat -> (i < length (s_info s0))%nat ->
    resolve_void W st i = Some st1 -> resolve_content st1 i = Some st2 -> PR st2 (S i).
  Proof.
    intros P I L H1 H2. destruct (lookup_lt_is_Some_2 _ _ L) as [x0 E0]. pose proof L as L'. rewrite len0 in L'.
    destruct (lookup_lt_is_Some_2 _ _ L') as [n0 En0]. destruct (p_info _ _ P _ _ _ E0 En0) as (x & n & Ex & En & Sx & Sn & (Nx & Cx & Rx & Fx) & _); [lia|].
    rewrite (cref0 _ _ I E0) in Cx.
    (* what the second step needs to know about the state before it *)
    assert (forall st1 x1 n1 r, frm i st st1 -> resolve_content st1 i = Some st2 -> s_info st1 !! i = Some x1 -> lns st1 !! i = Some n1 ->
      (is_ref n1 = true -> i_cref x1 = false /\ first_child n1 = r /\ refd st1 r) ->
      frm i st st2 /\ exists x' n', s_info st2 !! i = Some x' /\ lns st2 !! i = Some n' /\ i_null x' = i_null x1 /\ is_ref n' = is_ref n1 /\
        if is_ref n1 then points st2 x' n' r else i_cref x' = i_cref x1 /\ first_child n' = first_child n1) as CS.
    { intros s1 x1 n1 r F Hc Ex1 En1 Hr. destruct (content_step s1 i st2 x1 n1 r Hc Ex1 En1 Hr) as [F' H'].
      - intros j m0 Em0. assert (j < length (s_info s0))%nat as Lj by (rewrite len0; by eapply lookup_lt_Some).
        destruct (lookup_lt_is_Some_2 _ _ Lj) as [y0 Ey0]. destruct (p_info _ _ P _ _ _ Ey0 Em0) as (y & m & _ & Em & _ & (Pm & _) & _).
        destruct (r_link _ _ _ F _ _ Em) as (m' & Em' & (Pm' & _) & _). exists m'. split; [done|congruence].
      - intros j y0 Ey0. assert (j < length (lns s0))%nat as Lj by (rewrite <- len0; by eapply lookup_lt_Some).
        destruct (lookup_lt_is_Some_2 _ _ Lj) as [m0 Em0]. destruct (p_info _ _ P _ _ _ Ey0 Em0) as (y & m & Ey & _ & (_ & Ty & _) & _).
        destruct (r_info _ _ _ F _ _ Ey) as (y' & Ey' & (_ & Ty' & _) & _). exists y'. split; [done|congruence].
      - intros j m Em. apply lookup_lt_is_Some_2. apply lookup_lt_Some in Em. rewrite (r_lenl _ _ _ F), (p_lenl _ _ P) in Em. done.
      - split; [by eapply frm_trans|done]. }
    assert (i_type x = i_type x0 /\ i_aux x = i_aux x0 /\ i_data x = i_data x0) as (Tx & Ax & Dx) by (destruct Sx as (? & ? & ? & ? & _); done).
    (* a node that the first step leaves alone *)
    assert (forall st1 x1 n1, frm i st st1 -> resolve_content st1 i = Some st2 -> s_info st1 !! i = Some x1 -> lns st1 !! i = Some n1 ->
      i_null x1 = i_null x0 -> i_cref x1 = false -> is_ref n1 = is_ref n0 ->
      first_child n1 = (if negb (is_ref n0) && (i_type x0 =? T_STRING) then 0%nat else first_child n0) -> voidp x0 = false -> PR st2 (S i)) as Other.
    { intros s1 x1 n1 F Hc Ex1 En1 N1 C1 R1 F1 V. destruct (CS s1 x1 n1 (first_child n0) F Hc Ex1 En1) as (F2 & x' & n' & Ex' & En' & N' & R' & H').
      { intros Hr. rewrite R1 in Hr. split; [done|]. split; [by rewrite F1, Hr|]. destruct (ref0 _ _ En0 Hr) as (nr0 & Er0 & Rr0).
        assert (first_child n0 < length (s_info s0))%nat as Lr by (rewrite len0; by eapply lookup_lt_Some).
        destruct (lookup_lt_is_Some_2 _ _ Lr) as [y0 Ey0]. destruct (p_info _ _ P _ _ _ Ey0 Er0) as (y & m & _ & Em & _ & (_ & _ & Rm) & _).
        destruct (r_link _ _ _ F _ _ Em) as (m' & Em' & (_ & _ & Rm') & _). exists m'. auto. }
      eapply PR_step; [done|done|done|done|done|done|done|]. unfold fin. rewrite V. split; [congruence|]. rewrite R1 in *.
      destruct (is_ref n0) eqn:R0; [done|]. destruct H' as [H3 H4]. split; [done|]. split; [congruence|]. rewrite H4, F1. done. }
    unfold resolve_void in H1. rewrite (rd_lu _ _ _ Ex), (rd_lu _ _ _ En) in H1. cbn [mbind option_bind] in H1. rewrite Tx, Ax, Nx in H1.
    unfold voidp in Other.
    destruct (Z.eqb_spec (i_type x0) T_POINTER) as [Tp|Np].
    - assert (i_type x0 =? T_STRING = false) as Ts by (by rewrite Tp). rewrite Ts, andb_false_r in Other.
      destruct (((i_aux x0 =? T_NONE) || (i_aux x0 =? T_VOID)) && negb (i_null x0)) eqn:V.
      2:{ injection H1 as <-. eapply (Other st x n); try done. apply frm_refl. }
      assert (voidp x0 = true) as V' by (unfold voidp; rewrite Tp; exact V).
      destruct (void0 _ _ _ I E0 En0 V') as [R0 F0].
      apply bind_Some in H1 as (p & Hp & H1). rewrite (upd_info_eq _ _ _ _ Ex) in H1. cbn [mbind option_bind] in H1. set (sa := SSt _ _ _) in H1.
      assert (frm i st sa) as Fa by (apply (frm_info st i x); [done|]; repeat split; auto).
      assert (s_info sa !! i = Some (set_null x)) as Exa by (cbn; apply list_lookup_insert; by eapply lookup_lt_Some).
      apply bind_Some in H1 as (r & Hb & H1). apply bucket_ok in Hb as [B1 B2]; [|done].
      destruct (Nat.eqb_spec r 0) as [Er|Nr].
      + injection H1 as <-. destruct (CS sa (set_null x) n 0%nat Fa H2 Exa En) as (F2 & x' & n' & Ex' & En' & N' & R' & H').
        { intros Hr. rewrite Rx, R0 in Hr. done. }
        eapply PR_step; [done|done|done|done|done|done|done|]. unfold fin. rewrite V'. split; [by rewrite N'|]. exists p. split; [congruence|]. right.
        rewrite Rx, R0 in H'. destruct H' as [C' F']. split; [congruence|]. split; [congruence|]. split; [by rewrite C'|].
        intros j y0 J Ey0 Ej. destruct (B2 Er) as [_ B3].
        assert (j < length (lns s0))%nat as Lj by (rewrite <- len0; by eapply lookup_lt_Some).
        destruct (lookup_lt_is_Some_2 _ _ Lj) as [m0 Em0].
        assert (forall j y0, s_info s0 !! j = Some y0 -> exists y', s_info sa !! j = Some y' /\ sameI y0 y') as Fw.
        { intros k z0 Ez0. assert (k < length (lns s0))%nat as Lk by (rewrite <- len0; by eapply lookup_lt_Some).
          destruct (lookup_lt_is_Some_2 _ _ Lk) as [w0 Ew0]. destruct (p_info _ _ P _ _ _ Ez0 Ew0) as (z & w & Ez & _ & Sz & _).
          destruct (r_info _ _ _ Fa _ _ Ez) as (z' & Ez' & Sz' & _). exists z'. split; [done|]. by eapply sameI_trans. }
        destruct (Fw _ _ Ey0) as (y' & Ey' & Sy'). eapply (B3 j y'); [|done|destruct Sy' as (-> & _); done].
        change (s_heads sa) with (s_heads st). rewrite (p_heads _ _ P), <- Ej. eapply reach_map; [|by apply chain0].
        intros k z Ez. destruct (Fw _ _ Ez) as (z' & Ez' & Sz'). exists z'. split; [done|]. apply Sz'.
      + destruct (B1 Nr) as (xr & Exr & Dr).
        assert (r < length (s_info s0))%nat as Lr.
        { apply lookup_lt_Some in Exr. rewrite (r_len _ _ _ Fa), (p_len _ _ P) in Exr. done. }
        destruct (lookup_lt_is_Some_2 _ _ Lr) as [xr0 Exr0]. pose proof Lr as Lr'. rewrite len0 in Lr'. destruct (lookup_lt_is_Some_2 _ _ Lr') as [nr0 Enr0].
        destruct (p_info _ _ P _ _ _ Exr0 Enr0) as (yr & nr & Eyr & Enr & Syr & _ & _).
        destruct (r_info _ _ _ Fa _ _ Eyr) as (yr' & Eyr' & Syr' & _). rewrite Exr in Eyr'. injection Eyr' as <-.
        unfold make_ref in H1. rewrite (upd_link_eq sa i n) in H1 by done. cbn [mbind option_bind] in H1. set (n1 := mark_ref (set_first_child n r)) in *.
        set (sb := SSt _ _ _) in H1.
        assert (frm i sa sb) as Fb by (apply (frm_link sa i i n); [done| |done]; repeat split; auto).
        destruct (r_link _ _ _ Fb r nr Enr) as (mr & Emr & _ & _).
        rewrite (upd_link_eq sb r mr) in H1 by done. injection H1 as <-. set (sc := SSt _ _ _) in H2.
        assert (frm i sb sc) as Fc by (apply (frm_link sb i r mr); [done|repeat split; auto|done]).
        assert (lns sb !! i = Some n1) as Enb by (cbn; apply list_lookup_insert; by eapply lookup_lt_Some).
        assert (lns sc !! r = Some (mark_referenced mr)) as Ecr by (unfold sc; cbn [lns ra s_ptrs]; apply list_lookup_insert; by eapply lookup_lt_Some).
        assert (exists n2, lns sc !! i = Some n2 /\ is_ref n2 = true /\ first_child n2 = r) as (n2 & En2 & R2 & F2).
        { destruct (Nat.eq_dec r i) as [Er|Nri].
          - exists (mark_referenced mr). rewrite <- Er at 1. split; [done|]. rewrite Er, Enb in Emr. injection Emr as <-. done.
          - exists n1. split; [|done]. unfold sc. cbn [lns ra s_ptrs]. by rewrite list_lookup_insert_ne. }
        assert (frm i st sc) as Fsc by (eapply frm_trans; [exact Fa|eapply frm_trans; [exact Fb|exact Fc]]).
        destruct (CS sc (set_null x) n2 r Fsc H2 Exa En2) as (F3 & x' & n' & Ex' & En' & N' & R' & H').
        { intros _. split; [exact Cx|]. split; [done|]. by exists (mark_referenced mr). }
        eapply PR_step; [done|done|done|done|done|done|done|]. unfold fin. rewrite V'. split; [by rewrite N'|]. exists p. split; [congruence|]. left.
        rewrite R2 in H'. split; [congruence|]. exists r, xr0. do 2 (split; [done|]). split; [|done].
        destruct Syr as (A1 & _), Syr' as (A2 & _). congruence.
    - cbn [andb] in Other. destruct (Z.eqb_spec (i_type x0) T_STRING) as [Ts|Ns].
      { rewrite Rx in H1. destruct (is_ref n0) eqn:R0.
        - injection H1 as <-. eapply (Other st x n); try done. apply frm_refl.
        - rewrite (upd_link_eq _ _ _ _ En) in H1. injection H1 as <-. set (sa := SSt _ _ _) in H2.
          eapply (Other sa x (set_first_child n 0)); try done.
          + apply (frm_link st i i n); [done| |done]. repeat split; auto.
          + cbn. apply list_lookup_insert. by eapply lookup_lt_Some. }
      rewrite andb_false_r in Other.
      destruct (i_type x0 =? T_CHAR_ARRAY) eqn:Tc.
      2:{ injection H1 as <-. eapply (Other st x n); try done. apply frm_refl. }
      destruct (Nat.eqb (parent n) 0).
      { injection H1 as <-. eapply (Other st x n); try done. apply frm_refl. }
      apply bind_Some in H1 as (px & Epx & H1).
      destruct (((i_type px =? T_ARRAY) || (i_type px =? T_POINTER)) && negb (Nat.eqb (next n) 0)).
      2:{ injection H1 as <-. eapply (Other st x n); try done. apply frm_refl. }
      apply bind_Some in H1 as (y & Ey & H1). rewrite (upd_info_eq _ _ _ _ Ex) in H1. injection H1 as <-. set (sa := SSt _ _ _) in H2.
      eapply (Other sa (set_size x (w32 (i_size x - i_size y))) n); try done.
      + apply (frm_info st i x); [done|]. repeat split; auto.
      + cbn. apply list_lookup_insert. by eapply lookup_lt_Some.
  Qed.

  Lemma PR_init : PR s0 1.
  Proof.
    constructor; try done. intros j x0 n0 E En. exists x0, n0. do 2 (split; [done|]). split; [repeat split; auto|]. split; [repeat split; auto|].
    split; [done|]. intros ? ?. lia.
  Qed.
  Lemma post_ok k : forall st i st', PR st i -> i <> 0%nat -> (i + k <= length (s_info s0))%nat -> post_loop W k st i = Some st' -> PR st' (i + k).
  Proof.
    induction k as [|k IH]; intros st i st' P I L H.
    - injection H as <-. by rewrite Nat.add_0_r.
    - cbn in H. apply bind_Some in H as (s1 & H1 & H). apply bind_Some in H as (s2 & H2 & H).
      replace (i + S k)%nat with (S i + k)%nat by lia. eapply IH; [|lia|lia|exact H]. eapply (node_step st); [done|done|lia|done|done].
  Qed.
End Post.
