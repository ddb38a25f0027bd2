(** The state of mr_save between its steps (src/mr_save.c:1012-1591): invariant and frame. *)
From stdpp Require Import sets.
From Verif Require Import Base Ptrs ChildrenProof Save SaveForest SaveSpec.
Local Open Scope Z_scope.

Definition dset (D : nat -> fd) (i : nat) (v : fd) : nat -> fd := fun j => if Nat.eqb j i then v else D j.
Lemma dset_same D i v : dset D i v i = v.
Proof. unfold dset. by rewrite Nat.eqb_refl. Qed.
Lemma dset_other D i v j : j <> i -> dset D i v j = D j.
Proof. unfold dset. by destruct (Nat.eqb_spec j i). Qed.

(** Chains of nodes with the same key. *)
Inductive reach (l : list info) : nat -> nat -> Prop :=
  | reach_here i : i <> 0%nat -> reach l i i
  | reach_next h x i : h <> 0%nat -> l !! h = Some x -> reach l (i_chain x) i -> reach l h i.

Lemma anc_to_zero par x : anc par x 0 -> x = 0%nat.
Proof. intros H. remember 0%nat as z. induction H as [x|x y N A IH]; [done|]. rewrite IH in N; done. Qed.

Lemma Forall2_in {A B} (P Q : A -> B -> Prop) l k : Forall2 P l k -> (forall x y, x ∈ l -> P x y -> Q x y) -> Forall2 Q l k.
Proof. induction 1 as [|x y l k H _ IH]; intros G; constructor; [apply G; [left|done]|]. apply IH. intros u v Hu. apply G. by right. Qed.

Section Inv.
  Context (W : world).

  Definition done_at (st : sst) (K : nat -> list nat) (i : nat) : Prop :=
    K i <> [] \/ exists n, lns st !! i = Some n /\ is_ref n = true.
  Definition kid_at (st : sst) (D : nat -> fd) (a : Z) (f : fd) (c : nat) : Prop :=
    D c = f /\ exists x, s_info st !! c = Some x /\ i_data x = a.
  Definition encl (st : sst) (D : nat -> fd) (i : nat) : option (Z * nat) :=
    if Nat.eqb (parf (lns st) i) 0 then None else
    match s_info st !! parf (lns st) i with
    | Some px => if i_type px =? T_STRUCT then
        match f_tdp (D (parf (lns st) i)) with Some k => Some (i_data px, k) | None => None end else None
    | None => None
    end.

  (** Only pointers, strings and functions can be NULL. *)
  Definition null_ok (x : info) : Prop :=
    ptr_or_str (i_type x) || ((i_type x =? T_FUNC) || (i_type x =? T_FUNC_TYPE)) = false -> i_null x = false.

  (** A node that is complete. *)
  Definition node_body (st : sst) (K : nat -> list nat) (D : nat -> fd) (i : nat) (x : info) : Prop :=
    if i_type x =? T_STRUCT then
      exists k t, f_tdp (D i) = Some k /\ w_tds W !! k = Some t /\
        Forall2 (fun c f => kid_at st D (i_data x + f_off f) f c) (K i) (t_fields t)
    else if i_type x =? T_ARRAY then
      exists cnt, in_use W (encl st D i) (D i) cnt /\
        Forall2 (fun c j => kid_at st D (i_data x + j * f_size (part (D i))) (part (D i)) c) (K i) (seqZ 0 cnt)
    else if union_type (i_type x) then
      match k ← f_tdp (D i); t ← w_tds W !! k; d ← w_disc W (i_data x) k; t_fields t !! d with
      | Some g => exists c, K i = [c] /\ kid_at st D (i_data x + f_off g) g c
      | None => K i = []
      end
    else if i_type x =? T_POINTER then
      exists p, w_ptr W (i_data x) = Some p /\ i_opaque x = false /\
        if p =? 0 then i_null x = true
        else unit_size W (f_aux (D i)) (f_tdp (D i)) = Some (i_size x) /\ i_null x = (i_size x =? 0)
    else if i_type x =? T_STRING then
      exists p, w_ptr W (i_data x) = Some p /\ i_null x = (p =? 0) /\ (p <> 0 -> done_at st K i)
    else if (i_type x =? T_FUNC) || (i_type x =? T_FUNC_TYPE) then
      K i = [] /\ exists p, w_ptr W (i_data x) = Some p /\ i_null x = (p =? 0)
    else K i = [].
  Definition node_ok (st : sst) (K : nat -> list nat) (D : nat -> fd) (i : nat) (x : info) : Prop := null_ok x /\ node_body st K D i x.

  (** Types of nodes that can be found again. *)
  Definition matchable (t : Z) : bool := negb ((t =? T_ARRAY) || (t =? T_POINTER) || (t =? T_BITFIELD)).
  (** The data a pointer or a string leads to. *)
  Definition target_ok (D : nat -> fd) (i : nat) (x : info) (r : nat) (xr : info) : Prop :=
    w_ptr W (i_data x) = Some (i_data xr) /\ i_data xr <> 0 /\
    i_type xr = (if i_type x =? T_STRING then T_CHAR_ARRAY else f_aux (D i)).
  Definition content_ok (D : nat -> fd) (i : nat) (x : info) (c : nat) (xc : info) : Prop :=
    target_ok D i x c xc /\ (i_type x = T_POINTER -> D c = content W (D i)).
  Definition ref_ok (st : sst) (D : nat -> fd) (i : nat) (x : info) (r : nat) : Prop :=
    ptr_or_str (i_type x) = true /\ r <> 0%nat /\ exists xr nr, s_info st !! r = Some xr /\ lns st !! r = Some nr /\
      referenced nr = true /\ target_ok D i x r xr /\
      (i_type x = T_POINTER -> matchable (i_type xr) = true /\ (compound (i_type xr) = true -> f_tdp (D r) = f_tdp (D i))).

  Definition id_ok (D : nat -> fd) (i : nat) (x : info) : Prop :=
    i_type x = f_type (D i) /\ i_unnamed x = f_unnamed (D i) /\ (i_type x <> T_ENUM -> i_aux x = f_aux (D i)) /\
    fd_ok W (D i) /\ i_cref x = false /\
    (sized (i_type x) = true -> exists u, unit_size W (i_type x) (f_tdp (D i)) = Some u /\ u <= i_size x).

  Definition alike (D : nat -> fd) (i : nat) (x : info) (j : nat) (y : info) : Prop :=
    i_data x = i_data y /\ i_type x = i_type y /\ matchable (i_type x) = true /\
    (compound (i_type x) = true -> f_tdp (D i) = f_tdp (D j)).

  Definition np_ok (D : nat -> fd) (p : nat) (f : fd) : Prop :=
    f_np f = true -> (p = 0%nat /\ exists k t, f_tdp f = Some k /\ w_tds W !! k = Some t) \/
                     (p <> 0%nat /\ f_tdp (D p) = f_tdp f).

  (** [K] lists the children, [D i] is the descriptor node [i] was saved with
      last, [O] are the nodes being saved. *)
  Record Inv (st : sst) (K : nat -> list nat) (D : nat -> fd) (O : list nat) : Prop := {
    v_len : length (s_info st) = length (lns st);
    v_for : forest_ok (lns st) K;
    v_open : forall o, o ∈ O -> o <> 0%nat /\ (o < length (lns st))%nat;
    v_id : forall i x, i <> 0%nat -> s_info st !! i = Some x -> id_ok D i x;
    v_fdp_o : forall i x, i <> 0%nat -> i ∈ O -> s_info st !! i = Some x ->
      i_fdp x = Some (D i) /\ np_ok D (parf (lns st) i) (D i);
    v_fdp_c : forall i x, i <> 0%nat -> i ∉ O -> s_info st !! i = Some x ->
      exists h, i_fdp x = Some h /\ f_np h = false /\ f_tdp h = f_tdp (D i) /\ f_base h = base_of W (f_tdp h) /\
        (f_np (D i) = false -> h = D i);
    v_node : forall i x, i <> 0%nat -> i ∉ O -> s_info st !! i = Some x -> node_ok st K D i x;
    v_ref : forall i x n, s_info st !! i = Some x -> lns st !! i = Some n -> is_ref n = true -> ref_ok st D i x (first_child n);
    v_one : forall i x, i <> 0%nat -> s_info st !! i = Some x -> ptr_or_str (i_type x) = true ->
      K i = [] \/ exists c xc, K i = [c] /\ s_info st !! c = Some xc /\ content_ok D i x c xc;
    v_chain : forall i x, i <> 0%nat -> s_info st !! i = Some x -> reach (s_info st) (s_heads st (key (i_data x))) i;
    v_uniq : forall p q c d xp xq xc xd, c <> d -> c ∈ K p -> d ∈ K q ->
      s_info st !! p = Some xp -> s_info st !! q = Some xq -> s_info st !! c = Some xc -> s_info st !! d = Some xd ->
      ptr_or_str (i_type xp) = true -> ptr_or_str (i_type xq) = true -> ~ alike D c xc d xd }.

  (** What saving below [par] leaves alone. *)
  Definition same_id (x x' : info) : Prop :=
    i_data x' = i_data x /\ i_type x' = i_type x /\ i_chain x' = i_chain x /\ i_null x' = i_null x /\
    i_opaque x' = i_opaque x /\ (i_type x = T_POINTER -> x' = x).
  Record Ext (par : nat) (a : sst) (Ka : nat -> list nat) (Da : nat -> fd) (b : sst) (Kb : nat -> list nat) (Db : nat -> fd) : Prop := {
    e_len : (length (s_info a) <= length (s_info b))%nat;
    e_info : forall i x, s_info a !! i = Some x -> exists x', s_info b !! i = Some x' /\ same_id x x';
    e_stay : forall i x, i <> 0%nat -> s_info a !! i = Some x ->
      (parf (lns b) i = parf (lns a) i /\ Db i = Da i) \/
      ((exists px, parf (lns a) i <> 0%nat /\ s_info a !! parf (lns a) i = Some px /\ ptr_or_str (i_type px) = true) /\
       matchable (i_type x) = true /\ (compound (i_type x) = true -> f_tdp (Db i) = f_tdp (Da i)));
    e_kids : forall i x, i <> 0%nat -> s_info a !! i = Some x -> i <> par -> ptr_or_str (i_type x) = false -> Kb i = Ka i;
    e_done : forall i, i <> 0%nat -> (i < length (s_info a))%nat -> done_at a Ka i -> done_at b Kb i;
    e_anc : forall i, i <> 0%nat -> anc (parf (lns a)) par i -> s_info b !! i = s_info a !! i /\
      parf (lns b) i = parf (lns a) i /\ Db i = Da i /\ (i <> par -> Kb i = Ka i);
    e_undone : forall i x, i <> 0%nat -> s_info a !! i = Some x -> i_type x = T_POINTER -> i <> par -> done_at b Kb i -> done_at a Ka i;
    e_new : forall i x, (length (s_info a) <= i)%nat -> s_info b !! i = Some x -> i_type x = T_POINTER -> ~ done_at b Kb i }.

  Lemma same_id_refl x : same_id x x.
  Proof. done. Qed.
  Lemma same_id_trans x y z : same_id x y -> same_id y z -> same_id x z.
  Proof.
    intros (A1 & A2 & A3 & A4 & A5 & A6) (B1 & B2 & B3 & B4 & B5 & B6). unfold same_id.
    do 5 (split; [congruence|]). intros E. rewrite B6 by congruence. auto.
  Qed.
  Lemma Ext_refl par a K D : Ext par a K D a K D.
  Proof. constructor; eauto using same_id_refl. intros i x L E. apply lookup_lt_Some in E. lia. Qed.
  Lemma Ext_trans par a Ka Da b Kb Db c Kc Dc O : Inv a Ka Da O -> (par < length (s_info a))%nat -> Ext par a Ka Da b Kb Db -> Ext par b Kb Db c Kc Dc -> Ext par a Ka Da c Kc Dc.
  Proof.
    intros I Pl A B. constructor.
    - pose proof (e_len _ _ _ _ _ _ _ A). pose proof (e_len _ _ _ _ _ _ _ B). lia.
    - intros i x E. destruct (e_info _ _ _ _ _ _ _ A i x E) as (y & Ey & Sy). destruct (e_info _ _ _ _ _ _ _ B i y Ey) as (z & Ez & Sz).
      exists z. split; [done|]. by eapply same_id_trans.
    - intros i x I0 E. destruct (e_info _ _ _ _ _ _ _ A i x E) as (y & Ey & Sy). pose proof Sy as (_ & Ty & _).
      destruct (e_stay _ _ _ _ _ _ _ A i x I0 E) as [[P1 D1]|H1].
      + destruct (e_stay _ _ _ _ _ _ _ B i y I0 Ey) as [[P2 D2]|((px & P0 & Ep & Ps) & M & C)].
        { left. split; congruence. }
        right. split; [|rewrite <- Ty, <- D1; done]. rewrite P1 in *.
        destruct (s_info a !! parf (lns a) i) as [pa|] eqn:Ea.
        * destruct (e_info _ _ _ _ _ _ _ A _ _ Ea) as (pb & Eb & _ & Tb & _). rewrite Ep in Eb. injection Eb as <-. exists pa. rewrite <- Tb. done.
        * apply lookup_ge_None in Ea. pose proof (parf_lt _ _ (v_for _ _ _ _ I) i). rewrite (v_len _ _ _ _ I) in Ea. lia.
      + right. destruct H1 as (Px & M & C). split; [done|]. split; [done|]. intros Hc. rewrite <- C by done.
        destruct (e_stay _ _ _ _ _ _ _ B i y I0 Ey) as [[P2 D2]|(_ & _ & C2)]; [by rewrite D2|]. apply C2. by rewrite Ty.
    - intros i x I0 E Np Ps. destruct (e_info _ _ _ _ _ _ _ A i x E) as (y & Ey & _ & Ty & _).
      rewrite (e_kids _ _ _ _ _ _ _ B i y I0 Ey Np) by (by rewrite Ty). by eapply e_kids.
    - intros i I0 L H. eapply (e_done _ _ _ _ _ _ _ B); [done| |by eapply e_done]. pose proof (e_len _ _ _ _ _ _ _ A). lia.
    - intros i I0 H. destruct (e_anc _ _ _ _ _ _ _ A i I0 H) as (A1 & A2 & A3 & A4).
      assert (anc (parf (lns b)) par i) as H'.
      { eapply anc_agree; [exact H|]. intros z Hz _. destruct (Nat.eq_dec z 0%nat) as [->|Nz]; [|by apply (e_anc _ _ _ _ _ _ _ A)].
        apply anc_to_zero in Hz as ->. by apply (anc_of_zero _ _ (v_for _ _ _ _ I)) in H. }
      destruct (e_anc _ _ _ _ _ _ _ B i I0 H') as (B1 & B2 & B3 & B4). repeat split; try congruence. intros Np. rewrite B4, A4; done.
    - intros i x I0 E T Np Hd. destruct (e_info _ _ _ _ _ _ _ A i x E) as (y & Ey & _ & Ty & _).
      eapply (e_undone _ _ _ _ _ _ _ A); eauto. eapply (e_undone _ _ _ _ _ _ _ B i y); [done|done|congruence|done|done].
    - intros i x L E T. destruct (s_info b !! i) as [y|] eqn:Ey.
      + destruct (e_info _ _ _ _ _ _ _ B i y Ey) as (z & Ez & _ & Tz & _). rewrite E in Ez. injection Ez as <-.
        intros Hd. eapply (e_new _ _ _ _ _ _ _ A i y L Ey); [congruence|]. eapply (e_undone _ _ _ _ _ _ _ B i y); [lia|done|congruence|lia|done].
      + eapply (e_new _ _ _ _ _ _ _ B); [|done|done]. by apply lookup_ge_None.
  Qed.

  (** Saving below a new node is saving below its parent. *)
  Lemma Ext_up par idx a Ka Da b Kb Db c Kc Dc O x0 : Inv a Ka Da O -> idx = length (s_info a) -> s_info b !! idx = Some x0 -> i_type x0 <> T_POINTER -> (par < idx)%nat ->
    Ext par a Ka Da b Kb Db -> parf (lns b) idx = par -> Ext idx b Kb Db c Kc Dc -> Ext par a Ka Da c Kc Dc.
  Proof.
    intros I Ei E0 T0 Pz A Pi B. constructor.
    - pose proof (e_len _ _ _ _ _ _ _ A). pose proof (e_len _ _ _ _ _ _ _ B). lia.
    - intros i x E. destruct (e_info _ _ _ _ _ _ _ A i x E) as (y & Ey & Sy). destruct (e_info _ _ _ _ _ _ _ B i y Ey) as (z & Ez & Sz).
      exists z. split; [done|]. by eapply same_id_trans.
    - intros i x I0 E. destruct (e_info _ _ _ _ _ _ _ A i x E) as (y & Ey & Sy). pose proof Sy as (_ & Ty & _).
      destruct (e_stay _ _ _ _ _ _ _ A i x I0 E) as [[P1 D1]|H1].
      + destruct (e_stay _ _ _ _ _ _ _ B i y I0 Ey) as [[P2 D2]|((px & P0 & Ep & Ps) & M & C)].
        { left. split; congruence. }
        right. split; [|rewrite <- Ty, <- D1; done]. rewrite P1 in *.
        destruct (s_info a !! parf (lns a) i) as [pa|] eqn:Ea.
        * destruct (e_info _ _ _ _ _ _ _ A _ _ Ea) as (pb & Eb & _ & Tb & _). rewrite Ep in Eb. injection Eb as <-. exists pa. rewrite <- Tb. done.
        * apply lookup_ge_None in Ea. pose proof (parf_lt _ _ (v_for _ _ _ _ I) i). rewrite (v_len _ _ _ _ I) in Ea. lia.
      + right. destruct H1 as (Px & M & C). split; [done|]. split; [done|]. intros Hc. rewrite <- C by done.
        destruct (e_stay _ _ _ _ _ _ _ B i y I0 Ey) as [[P2 D2]|(_ & _ & C2)]; [by rewrite D2|]. apply C2. by rewrite Ty.
    - intros i x I0 E Np Ps. destruct (e_info _ _ _ _ _ _ _ A i x E) as (y & Ey & _ & Ty & _).
      apply lookup_lt_Some in E as L.
      rewrite (e_kids _ _ _ _ _ _ _ B i y I0 Ey) by (lia || by rewrite Ty). by eapply e_kids.
    - intros i I0 L H. eapply (e_done _ _ _ _ _ _ _ B); [done| |by eapply e_done]. pose proof (e_len _ _ _ _ _ _ _ A). lia.
    - intros i I0 H. destruct (Nat.eq_dec par 0%nat) as [Pz0|Pz0].
      { rewrite Pz0 in H. by apply (anc_of_zero _ _ (v_for _ _ _ _ I)) in H. }
      destruct (e_anc _ _ _ _ _ _ _ A i I0 H) as (A1 & A2 & A3 & A4).
      destruct (anc_in _ _ (v_for _ _ _ _ I) _ _ H) as [_ Li]; [done|by rewrite <- (v_len _ _ _ _ I), <- Ei|].
      rewrite <- (v_len _ _ _ _ I), <- Ei in Li.
      assert (anc (parf (lns b)) par i) as H'.
      { eapply anc_agree; [exact H|]. intros z Hz _. destruct (Nat.eq_dec z 0%nat) as [->|Nz]; [|by apply (e_anc _ _ _ _ _ _ _ A)].
        by apply anc_to_zero in Hz. }
      assert (anc (parf (lns b)) idx i) as H2 by (apply anc_up; rewrite Pi; done).
      destruct (e_anc _ _ _ _ _ _ _ B i I0 H2) as (B1 & B2 & B3 & B4).
      repeat split; try congruence. intros Np. rewrite B4, A4; lia || done.
    - intros i x I0 E T Np Hd. destruct (e_info _ _ _ _ _ _ _ A i x E) as (y & Ey & _ & Ty & _).
      eapply (e_undone _ _ _ _ _ _ _ A); eauto. eapply (e_undone _ _ _ _ _ _ _ B i y); [done|done|congruence|apply lookup_lt_Some in E; lia|done].
    - intros i x L E T. destruct (s_info b !! i) as [y|] eqn:Ey.
      + destruct (e_info _ _ _ _ _ _ _ B i y Ey) as (z & Ez & _ & Tz & _). rewrite E in Ez. injection Ez as <-.
        intros Hd. eapply (e_new _ _ _ _ _ _ _ A i y L Ey); [congruence|]. eapply (e_undone _ _ _ _ _ _ _ B i y); [lia|done|congruence|intros ->; congruence|done].
      + eapply (e_new _ _ _ _ _ _ _ B); [|done|done]. by apply lookup_ge_None.
  Qed.

  (** Changes of a node added later. *)
  Lemma Ext_new par a Ka Da b Kb Db c Dc O : Inv a Ka Da O -> (par < length (s_info a))%nat -> Ext par a Ka Da b Kb Db ->
    (forall i, (i < length (s_info a))%nat -> s_info c !! i = s_info b !! i /\ Dc i = Db i) ->
    length (s_info c) = length (s_info b) -> (forall i x, s_info c !! i = Some x -> exists y, s_info b !! i = Some y /\ i_type y = i_type x) ->
    lns c = lns b -> Ext par a Ka Da c Kb Dc.
  Proof.
    intros I Pl A H L Ht E. constructor.
    - rewrite L. apply A.
    - intros i x Ei. apply lookup_lt_Some in Ei as Li. destruct (H i Li) as [-> _]. by apply A.
    - intros i x I0 Ei. apply lookup_lt_Some in Ei as Li. destruct (H i Li) as [_ ->]. rewrite E. by apply A.
    - apply A.
    - intros i I0 Li Hd. pose proof (e_done _ _ _ _ _ _ _ A i I0 Li Hd) as Q. unfold done_at in *. by rewrite E.
    - intros i I0 Ha. destruct (e_anc _ _ _ _ _ _ _ A i I0 Ha) as (A1 & A2 & A3 & A4). rewrite E.
      assert (i < length (s_info a))%nat as Li; [|destruct (H i Li) as [-> ->]; done].
      destruct (Nat.eq_dec par 0%nat) as [->|Pz]; [by apply (anc_of_zero _ _ (v_for _ _ _ _ I)) in Ha|].
      rewrite (v_len _ _ _ _ I) in *. by apply (anc_in _ _ (v_for _ _ _ _ I) _ _ Ha).
    - intros i x I0 Ei T Np Hd. eapply (e_undone _ _ _ _ _ _ _ A); eauto. unfold done_at in *. by rewrite <- E.
    - intros i x Li Ei T Hd. destruct (Ht _ _ Ei) as (y & Ey & Ty). eapply (e_new _ _ _ _ _ _ _ A i y); [done|done|congruence|].
      unfold done_at in *. by rewrite <- E.
  Qed.

  Lemma Inv_parf_lt st K D O i x : Inv st K D O -> s_info st !! i = Some x -> exists px, s_info st !! parf (lns st) i = Some px.
  Proof. intros I E. apply lookup_lt_is_Some_2. rewrite (v_len _ _ _ _ I). apply (parf_lt _ _ (v_for _ _ _ _ I)). Qed.

  Lemma encl_ext par a Ka Da b Kb Db O i x : Inv a Ka Da O -> Ext par a Ka Da b Kb Db -> i <> 0%nat -> s_info a !! i = Some x ->
    i_type x = T_ARRAY -> encl b Db i = encl a Da i /\ Db i = Da i.
  Proof.
    intros I A I0 E T. destruct (e_stay _ _ _ _ _ _ _ A i x I0 E) as [[P D]|(_ & M & _)]; [|by rewrite T in M].
    split; [|done]. unfold encl. rewrite P. destruct (Nat.eqb_spec (parf (lns a) i) 0) as [|Np]; [done|].
    destruct (Inv_parf_lt _ _ _ _ _ _ I E) as [px Ep]. rewrite Ep. destruct (e_info _ _ _ _ _ _ _ A _ _ Ep) as (px' & Ep' & S1 & S2 & _).
    rewrite Ep', S1, S2. destruct (Z.eqb_spec (i_type px) T_STRUCT) as [Tp|]; [|done].
    destruct (e_stay _ _ _ _ _ _ _ A _ _ Np Ep) as [[_ ->]|(_ & _ & C)]; [done|]. rewrite C; [done|]. unfold compound. by rewrite Tp.
  Qed.

  Lemma kid_ext par a Ka Da b Kb Db O i x ad f c : Inv a Ka Da O -> Ext par a Ka Da b Kb Db -> s_info a !! i = Some x ->
    ptr_or_str (i_type x) = false -> c ∈ Ka i -> kid_at a Da ad f c -> kid_at b Db ad f c.
  Proof.
    intros I A E Ps Hc (Dc & xc & Ec & Ad). destruct (kid_lt _ _ (v_for _ _ _ _ I) _ _ Hc) as (C0 & _ & _ & _ & Pc).
    destruct (e_info _ _ _ _ _ _ _ A _ _ Ec) as (xc' & Ec' & S1 & _). split; [|exists xc'; split; congruence].
    destruct (e_stay _ _ _ _ _ _ _ A _ _ C0 Ec) as [[_ ->]|((px & _ & Ep & Pp) & _)]; [done|]. rewrite Pc in Ep. congruence.
  Qed.

  Lemma node_ok_ext par a Ka Da b Kb Db O i x x' : Inv a Ka Da O -> Ext par a Ka Da b Kb Db -> i <> 0%nat ->
    s_info a !! i = Some x -> s_info b !! i = Some x' -> (i = par -> ptr_or_str (i_type x) = true) ->
    node_ok a Ka Da i x -> node_ok b Kb Db i x'.
  Proof.
    intros I A I0 E E' Np H. destruct (e_info _ _ _ _ _ _ _ A _ _ E) as (x2 & E2 & S1 & S2 & _ & S4 & S5 & S6).
    rewrite E' in E2. injection E2 as <-. destruct H as [Hnl H]. split; [unfold null_ok in *; by rewrite S2, S4|]. unfold node_body in *. rewrite S1, S2, S4, S5.
    pose proof (e_stay _ _ _ _ _ _ _ A _ _ I0 E) as St.
    assert (ptr_or_str (i_type x) = false -> Kb i = Ka i) as Ki.
    { intros Ps. eapply (e_kids _ _ _ _ _ _ _ A); eauto. intros ->. rewrite Np in Ps; done. }
    destruct (Z.eqb_spec (i_type x) T_STRUCT) as [T|T1].
    { destruct H as (k & t & H1 & H2 & H3). exists k, t.
      assert (f_tdp (Db i) = f_tdp (Da i)) as ->. { destruct St as [[_ ->]|(_ & _ & C)]; [done|]. apply C. unfold compound. by rewrite T. }
      do 2 (split; [done|]). assert (ptr_or_str (i_type x) = false) as Ps by (by rewrite T). rewrite Ki by done.
      eapply Forall2_in; [exact H3|]. cbn. intros c f Hc. by eapply kid_ext. }
    destruct (Z.eqb_spec (i_type x) T_ARRAY) as [T|T2].
    { destruct H as (cnt & H1 & H2). exists cnt. destruct (encl_ext _ _ _ _ _ _ _ _ _ _ I A I0 E T) as [-> ->]. split; [done|].
      assert (ptr_or_str (i_type x) = false) as Ps by (by rewrite T). rewrite Ki by done.
      eapply Forall2_in; [exact H2|]. cbn. intros c f Hc. by eapply kid_ext. }
    destruct (union_type (i_type x)) eqn:T3.
    { assert (f_tdp (Db i) = f_tdp (Da i)) as ->.
      { destruct St as [[_ ->]|(_ & _ & C)]; [done|]. apply C. unfold compound. rewrite T3. by rewrite !orb_true_r. }
      assert (ptr_or_str (i_type x) = false) as Ps.
      { unfold union_type, ptr_or_str, T_UNION, T_ANON_UNION, T_NAMED_ANON_UNION, T_POINTER, T_STRING in *. lia. }
      rewrite Ki by done. case_match; [|done]. destruct H as (c & Hc & Hk). exists c. split; [done|].
      eapply kid_ext; [done|done|done|done| |done]. rewrite Hc. left. }
    destruct (Z.eqb_spec (i_type x) T_POINTER) as [T|T4].
    { rewrite S6 by done. destruct St as [[_ ->]|(_ & M & _)]; [done|]. by rewrite T in M. }
    destruct (Z.eqb_spec (i_type x) T_STRING) as [T|T5].
    { destruct H as (p & H1 & H2 & H3). exists p. do 2 (split; [done|]). intros Hp. eapply (e_done _ _ _ _ _ _ _ A); [done| |by apply H3].
      by eapply lookup_lt_Some. }
    assert (ptr_or_str (i_type x) = false) as Ps by (unfold ptr_or_str; lia). by rewrite Ki.
  Qed.
End Inv.
