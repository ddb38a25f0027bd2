(** mr_save_inner and its handlers (src/mr_save.c:1012-1230, 1499-1545) keep the invariant. *)
From stdpp Require Import sets.
From Verif Require Import Base Ptrs ChildrenProof Save SaveForest SaveSpec SaveInv SaveSteps.
Local Open Scope Z_scope.

Lemma elem_fd_part f : f_type f = T_ARRAY -> elem_fd f = part f.
Proof. intros T. unfold elem_fd, part. rewrite T. by destruct (Nat.eqb (f_dims f) 1). Qed.

Lemma fd_ok_part W f : fd_ok W f -> f_type f = T_ARRAY -> f_dim0 f <> 0 -> fd_ok W (part f).
Proof.
  intros [Fs [Fb Fo]] T Dz. rewrite T, Z.eqb_refl in Fo. destruct Fo as (F1 & F2 & F3 & F4). specialize (F4 Dz).
  assert (0 <= f_size f / f_dim0 f < 2 ^ 32) as Sz.
  { split; [apply Z.div_pos; lia|]. apply Z.le_lt_trans with (f_size f); [|lia]. apply Z.div_le_upper_bound; nia. }
  unfold fd_ok, part. cbn [f_type f_aux f_base f_size f_dim0 f_dims f_tdp f_np]. split; [done|]. split; [done|].
  destruct (Nat.eqb_spec (f_dims f) 1) as [E1|E1].
  - destruct (Z.eqb_spec (f_aux f) T_ARRAY); [done|]. rewrite E1 in F4. change (Z.of_nat 1) with 1 in F4. rewrite Z.pow_1_r in F4. exact F4.
  - rewrite Z.eqb_refl. split; [lia|]. split; [done|]. split; [done|]. intros _.
    assert (f_size f / f_dim0 f / f_dim0 f ^ Z.of_nat (f_dims f - 1) = f_size f / f_dim0 f ^ Z.of_nat (f_dims f)) as ->; [|exact F4].
    rewrite Z.div_div by (try apply Z.pow_pos_nonneg; lia). f_equal. rewrite <- Z.pow_succ_r by lia. f_equal. lia.
Qed.

Lemma no_size_compound t : 0 <= t <= T_NAMED_ANON_UNION -> sized t = true -> (type_size t =? 0) = true -> compound t = true.
Proof.
  intros R. assert (t ∈ seqZ 0 32) as H by (apply elem_of_seqZ; unfold T_NAMED_ANON_UNION in R; lia). clear R.
  repeat (apply elem_of_cons in H as [->|H]; [done|]). by apply elem_of_nil in H.
Qed.

Section Run.
  Context (W : world) (HW : wf_world W).

  Definition Pre (st : sst) (K : nat -> list nat) (D : nat -> fd) (O : list nat) (par : nat) (data : Z) (f : fd) (count : Z) : Prop :=
    Inv W st K D O /\ par <> 0%nat /\ (exists npar, lns st !! par = Some npar /\ is_ref npar = false) /\
    exists px, s_info st !! par = Some px /\ (forall o, o ∈ O -> anc (parf (lns st)) par o) /\ (par ∈ O \/ i_type px = T_POINTER) /\
      hitc (lns st) K (cache (s_ptrs st)) par /\ fd_ok W f /\ np_ok W D par f /\ 1 <= count /\ f_size f * count < 2 ^ 32 /\
      (ptr_or_str (i_type px) = true -> K par = [] /\ w_ptr W (i_data px) = Some data /\ data <> 0 /\
         f_type f = (if i_type px =? T_STRING then T_CHAR_ARRAY else f_aux (D par)) /\ count = 1 /\
         (i_type px = T_POINTER -> f = content W (D par) /\ f_size f <> 0 /\ unit_size W (f_type f) (f_tdp f) = Some (f_size f) /\
            f_type f <> T_VOID /\ f_type f <> T_NONE)).

  Definition Post (st : sst) (K : nat -> list nat) (D : nat -> fd) (O : list nat) (par : nat) (data : Z) (f : fd) (st' : sst) : Prop :=
    exists K' D', Inv W st' K' D' O /\ Ext par st K D st' K' D' /\
      ((exists x, K' par = K par ++ [x] /\ kid_at st' D' data f x /\ anc (parf (lns st')) (cache (s_ptrs st')) x) \/
       (K' par = K par /\ (exists px, s_info st !! par = Some px /\ ptr_or_str (i_type px) = true) /\
        (exists n, lns st' !! par = Some n /\ is_ref n = true) /\ cache (s_ptrs st') = cache (s_ptrs st))).

  Definition RecOK (rec : Z -> fd -> Z -> sst -> nat -> option (Z * sst)) : Prop :=
    forall data f count st par n st' K D O, Pre st K D O par data f count -> rec data f count st par = Some (n, st') ->
      n = 0 \/ n = 1 /\ Post st K D O par data f st'.

  (** ** Finding a node again *)
  Lemma ref_is_parent_no ns r : parf ns 0 = 0%nat -> r <> 0%nat -> forall fuel i, ref_is_parent fuel ns i r = Some false -> ~ anc (parf ns) i r.
  Proof.
    intros Pz Rz. induction fuel as [|fuel IH]; intros i H; [done|]. cbn in H. destruct (Nat.eqb_spec i 0) as [Iz|Iz].
    - intros A. subst i. inversion A; subst; congruence.
    - cbn in H. destruct (Nat.eqb_spec i r) as [Ir|Ir]; [done|].
      apply bind_Some in H as (n & En & H). apply IH in H. intros A. apply H. rewrite <- (parf_lu _ _ _ En). inversion A; subst; done.
  Qed.

  (** What resolve_matched finds for the content of a pointer or a string. *)
  Lemma matched_ps rec st K D O par data f count : Pre st K D O par data f count ->
    forall px, s_info st !! par = Some px -> ptr_or_str (i_type px) = true ->
    forall fuel h b n st', resolve_matched W rec fuel st h (new_info data f count) par = Some (b, n, st') ->
    (b = false /\ st' = st /\ forall i, reach (s_info st) h i -> forall y, s_info st !! i = Some y -> same_typed y (new_info data f count) = false) \/
    (b = true /\ n = 1 /\ Post st K D O par data f st').
  Proof.
    intros (I & P & (npar & Ep & Rp) & px & Epx & Oa & Po & Hit & Fo & Np & Cn & Sz & Ct) px' Epx' Ps. rewrite Epx in Epx'. injection Epx' as <-.
    destruct (Ct Ps) as (Kp & Wp & Dz & Tf & C1 & Cp). subst count. clear Ct.
    assert (first_child npar = 0%nat) as Fz.
    { pose proof (fo_kids _ _ (v_for _ _ _ _ _ I) _ _ Ep) as L. rewrite Rp, Kp in L. done. }
    induction fuel as [|fuel IH]; intros h b n st' H; [done|]. cbn [resolve_matched] in H.
    destruct (Nat.eqb_spec h 0) as [->|Hz].
    { injection H as <- <- <-. left. do 2 (split; [done|]). intros i Hr. inversion Hr; subst; done. }
    apply bind_Some in H as (rn & Ern & H). apply bind_Some in H as (rx & Erx & H). unfold rd in Ern, Erx.
    destruct (same_typed rx (new_info data f 1)) eqn:Sm; cbn [negb] in H.
    2:{ destruct (IH _ _ _ _ H) as [(-> & -> & Hn)|?]; [left|by right]. do 2 (split; [done|]). intros i Hr y Ey.
        inversion Hr as [? Hi|? z ? Hh Ez Hr']; subst; [congruence|]. rewrite Erx in Ez. injection Ez as <-. by eapply Hn. }
    right. pose proof Sm as Sm0. apply (same_typed_alike W _ _ _ _ _ _ _ _ _ I Hz Erx) in Sm as (Sd & St & Sm & Sc).
    rewrite (rd_lu _ _ _ Epx) in H. cbn [mbind option_bind] in H.
    destruct (ref_inv W st K D O par px h rx) as (st1 & E1 & I1 & X1 & _ & C1 & N1 & _); try done.
    { unfold target_ok. rewrite Sd, St. done. }
    { intros Tp. split; [done|]. intros Hc. rewrite Sc by done. destruct (Cp Tp) as (-> & _). done. }
    assert (Post st K D O par data f st1) as Q.
    { exists K, D. split; [done|]. split; [done|]. right. split; [done|]. split; [by exists px|]. done. }
    destruct (Z.eqb_spec (i_type px) T_STRING) as [Ts|Ts].
    { rewrite E1 in H. cbn in H. by injection H as <- <- <-. }
    assert (i_type px = T_POINTER) as Tp by (clear -Ps Ts; unfold ptr_or_str in Ps; lia). rewrite Tp, Z.eqb_refl in H.
    destruct (Cp Tp) as (Ctd & Csz & Cu & Cv & Cno).
    unfold resolve_pointer in H. cbn [i_fdp new_info mbind option_bind i_size] in H.
    destruct (Z.eqb_spec (f_size f) 0); [done|]. rewrite (rd_lu _ _ _ Ern), (rd_lu _ _ _ Erx) in H. cbn [mbind option_bind] in H.
    apply bind_Some in H as (qx & Eqx & H). rewrite (rd_lu _ _ _ Ep) in H. cbn [mbind option_bind] in H. rewrite Fz in H. cbn [Nat.eqb] in H.
    assert (w32 (f_size f * 1) = f_size f) as Ws. { rewrite Z.mul_1_r in *. apply w32_small. destruct Fo as [Fs _]. exact Fs. }
    rewrite Ws in H.
    assert (f_size f <= i_size rx) as Le.
    { destruct (v_id _ _ _ _ _ I h rx Hz Erx) as (B1 & _ & _ & _ & _ & B6).
      assert (f_type f <> T_CHAR_ARRAY /\ 0 <= f_type f <= T_NAMED_ANON_UNION) as [Nc Rg].
      { destruct (v_id _ _ _ _ _ I par px P Epx) as (D1 & _ & _ & D4 & _). destruct D4 as [_ [_ D4]]. rewrite <- D1, Tp in D4. cbn in D4.
          destruct D4 as (_ & _ & D4). destruct (D4 eq_refl) as (_ & _ & (D5 & _ & D6) & _). rewrite Tf. done. }
      assert (sized (i_type rx) = true) as Hs.
      { rewrite St in *. clear -Sm Nc Cv Cno. unfold sized, matchable in *. rewrite negb_true_iff in *. rewrite !orb_false_iff in *. lia. }
      destruct (B6 Hs) as (u & Hu & Lu). assert (unit_size W (i_type rx) (f_tdp (D h)) = Some (f_size f)) as E; [|rewrite Hu in E; injection E as ->; done].
      rewrite <- Cu, St. unfold unit_size. destruct (type_size (f_type f) =? 0) eqn:Tz; [|done].
      rewrite Sc; [done|]. rewrite St in *. by apply no_size_compound. }
    apply Z.leb_le in Le. rewrite Le in H. rewrite E1 in H. cbn [mbind option_bind] in H. injection H as <- <- <-.
    split; [done|]. split; [|done]. apply Z.div_same. done.
  Qed.

  (** A member or an element may be the content of a pointer saved before. *)
  Lemma matched_member rec st K D O par data f count : Pre st K D O par data f count ->
    forall px, s_info st !! par = Some px -> ptr_or_str (i_type px) = false ->
    forall fuel h b n st', resolve_matched W rec fuel st h (new_info data f count) par = Some (b, n, st') ->
    (b = false /\ st' = st) \/ (b = true /\ n = 1 /\ Post st K D O par data f st').
  Proof.
    intros (I & P & (npar & Ep & Rp) & px & Epx & Oa & Po & Hit & Fo & Np & Cn & Sz & Ct) px' Epx' Ps. rewrite Epx in Epx'. injection Epx' as <-.
    clear Ct. assert (par ∈ O) as Ho. { destruct Po as [?|T]; [done|]. by rewrite T in Ps. }
    induction fuel as [|fuel IH]; intros h b n st' H; [done|]. cbn [resolve_matched] in H.
    destruct (Nat.eqb_spec h 0) as [Hz|Hz]; [injection H as <- <- <-; by left|].
    apply bind_Some in H as (rn & Ern & H). apply bind_Some in H as (rx & Erx & H). unfold rd in Ern, Erx.
    destruct (same_typed rx (new_info data f count)) eqn:Sm; cbn [negb] in H; [|by apply IH in H].
    rewrite (rd_lu _ _ _ Epx) in H. cbn [mbind option_bind] in H.
    assert ((i_type px =? T_STRING) = false /\ (i_type px =? T_POINTER) = false) as [E1 E2] by (clear -Ps; unfold ptr_or_str in Ps; lia).
    rewrite E1, E2 in H. apply bind_Some in H as (mv & Hm & H). destruct mv; [|by apply IH in H].
    right. unfold movable in Hm. destruct (Nat.eqb_spec (parent rn) 0) as [|Qz]; [done|].
    apply bind_Some in Hm as (qx & Eqx & Hm). apply bind_Some in Hm as (b1 & Hb & Hm). destruct b1; [|done].
    apply bind_Some in Hm as (r & Hr & Hm). destruct r; [done|]. clear Hm.
    apply ref_is_parent_no in Hr; [|apply (parf_zero _ _ (v_for _ _ _ _ _ I))|done].
    apply bind_Some in H as ([n1 st1] & Hv & H). injection H as <- <- <-. split; [done|].
    assert (ptr_or_str (i_type qx) = true) as Pq.
    { clear -Hb. unfold ptr_or_str. destruct (i_type qx =? T_STRING); [by rewrite orb_true_r|]. by destruct (i_type qx =? T_POINTER). }
    destruct (move_inv W HW st K D O par npar px (parent rn) h rx qx f data count n1 st1) as (-> & I1 & X1 & C1 & (x' & Ex' & Dx') & P1); try done.
    { by rewrite (parf_lu _ _ _ Ern). }
    split; [done|]. eexists _, _. split; [exact I1|]. split; [exact X1|]. left. exists h. rewrite fset_same. split; [done|]. split.
    - split; [apply dset_same|]. eauto.
    - rewrite C1. constructor.
  Qed.

  (** ** The handlers *)
  Section Handlers.
    Context (rec : Z -> fd -> Z -> sst -> nat -> option (Z * sst)) (HR : RecOK rec).
    (** The state before the node was added. *)
    Context (st0 : sst) (K0 : nat -> list nat) (D0 : nat -> fd) (O : list nat) (par idx : nat) (g : fd) (data : Z).
    Context (I0 : Inv W st0 K0 D0 O) (Hidx : idx = length (s_info st0)) (Hpar : (par < idx)%nat) (Hoa : forall o, o ∈ O -> anc (parf (lns st0)) par o)
      (Hpz : par = 0%nat -> O = []).

    Record SC (st : sst) (K : nat -> list nat) (D : nat -> fd) (x : info) : Prop := {
      c_inv : Inv W st K D (idx :: O);
      c_ext : Ext par st0 K0 D0 st K D;
      c_info : s_info st !! idx = Some x;
      c_data : i_data x = data;
      c_d : D idx = g;
      c_par : parf (lns st) idx = par;
      c_kp : par <> 0%nat -> K par = K0 par ++ [idx] }.

    Lemma idx_nz : idx <> 0%nat.
    Proof. pose proof (fo_len _ _ (v_for _ _ _ _ _ I0)). rewrite <- (v_len _ _ _ _ _ I0) in *. lia. Qed.

    Lemma sc_anc st K D x : SC st K D x -> forall o, o ∈ idx :: O -> anc (parf (lns st)) idx o.
    Proof.
      intros C o [->|Ho]%elem_of_cons; [constructor|]. destruct (Nat.eq_dec par 0%nat) as [Pz|Pz].
      { rewrite (Hpz Pz) in Ho. by apply elem_of_nil in Ho. }
      apply anc_up; rewrite (c_par _ _ _ _ C); [done|]. pose proof (Hoa o Ho) as A.
      eapply anc_agree; [exact A|]. intros z Hz _. destruct (Nat.eq_dec z 0%nat) as [->|Nz]; [by apply anc_to_zero in Hz|].
      by apply (e_anc _ _ _ _ _ _ _ (c_ext _ _ _ _ C)).
    Qed.

    (** The last child of [idx] is on the way from the cached node to the root. *)
    Definition at_idx (st : sst) (K : nat -> list nat) : Prop :=
      match last (K idx) with Some x => anc (parf (lns st)) (cache (s_ptrs st)) x | None => anc (parf (lns st)) (cache (s_ptrs st)) idx end.
    Lemma anc_lt ns K i y : forest_ok ns K -> anc (parf ns) i y -> y <> 0%nat -> (y < length ns)%nat -> i <> 0%nat /\ (i < length ns)%nat.
    Proof.
      intros R A Y L. destruct (Nat.eq_dec i 0%nat) as [->|Ni]; [apply (anc_of_zero _ _ R) in A; done|]. split; [done|].
      destruct (Nat.lt_ge_cases i (length ns)) as [?|Ge]; [done|]. exfalso. inversion A as [|? ? N _]; subst; [lia|].
      unfold parf in N. rewrite lookup_ge_None_2 in N; done.
    Qed.
    Lemma at_hit st K D x : SC st K D x -> at_idx st K -> hitc (lns st) K (cache (s_ptrs st)) idx /\ anc (parf (lns st)) (cache (s_ptrs st)) idx.
    Proof.
      intros C H. pose proof (v_for _ _ _ _ _ (c_inv _ _ _ _ C)) as R. unfold at_idx in H. unfold hitc.
      destruct (last (K idx)) as [z|] eqn:El.
      - apply last_Some in El as (l & El). assert (z ∈ K idx) as Hz by (rewrite El; set_solver).
        destruct (kid_lt _ _ R _ _ Hz) as (Z0 & Lz & _ & _ & _). destruct (anc_lt _ _ _ _ R H Z0 Lz) as [C0 Lc].
        split; [right|].
        + split; [done|]. split; [done|]. intros y Ay Py. f_equal.
          eapply (anc_kid_unique _ _ R); [exact H|exact Ay|exact Hz|]. apply (fo_in _ _ R). destruct (anc_in _ _ R _ _ Ay C0 Lc). pose proof idx_nz. done.
        + eapply anc_trans; [exact H|]. by apply (kid_anc _ _ R).
      - apply last_None in El. split; [by left|done].
    Qed.

    (** One recursive call. *)
    Lemma rec_step st K D x a f count n st' : SC st K D x -> at_idx st K -> i_type x <> T_POINTER ->
      (exists nd, lns st !! idx = Some nd /\ is_ref nd = false) -> fd_ok W f -> np_ok W D idx f -> 1 <= count -> f_size f * count < 2 ^ 32 ->
      (i_type x = T_STRING -> K idx = [] /\ w_ptr W data = Some a /\ a <> 0 /\ f_type f = T_CHAR_ARRAY /\ count = 1) ->
      rec a f count st idx = Some (n, st') ->
      n = 0 \/ n = 1 /\ exists K' D', SC st' K' D' x /\ Ext idx st K D st' K' D' /\
        ((exists c, K' idx = K idx ++ [c] /\ kid_at st' D' a f c /\ at_idx st' K') \/
         (i_type x = T_STRING /\ K' idx = K idx /\ (exists nd, lns st' !! idx = Some nd /\ is_ref nd = true) /\ cache (s_ptrs st') = cache (s_ptrs st))).
    Proof.
      intros C Hat Nt Hnd Fo Np Cn Sz Hs Hr. destruct (at_hit _ _ _ _ C Hat) as [Hit _].
      destruct (HR a f count st idx n st' K D (idx :: O)) as [->|[-> (K' & D' & I' & X' & Cs)]]; [|done|by left|].
      { split; [apply C|]. split; [apply idx_nz|]. split; [done|]. exists x. split; [apply C|]. split; [by eapply sc_anc|]. split; [left; left|].
        do 5 (split; [done|]). intros Ps. assert (i_type x = T_STRING) as Ts by (clear -Ps Nt; unfold ptr_or_str in Ps; lia).
        destruct (Hs Ts) as (A1 & A2 & A3 & A4 & A5). rewrite (c_data _ _ _ _ C), Ts. cbn. repeat split; done. }
      right. split; [done|]. exists K', D'. pose proof idx_nz as Iz.
      destruct (e_anc _ _ _ _ _ _ _ X' idx Iz) as (A1 & A2 & A3 & _); [constructor|].
      assert (SC st' K' D' x) as C'.
      { destruct C. constructor; try done; try congruence.
        2:{ intros Pz. rewrite <- c_kp0 by done. apply (e_anc _ _ _ _ _ _ _ X'); [done| |lia]. apply anc_up; rewrite c_par0; [done|]. constructor. }
        eapply Ext_up; [exact I0|exact Hidx|done|done|done|done|done|done]. }
      split; [done|]. split; [done|]. destruct Cs as [(c & Ec & Hk & Ha)|(Ek & (px & Epx & Ps) & Hn & Hc)].
      - left. exists c. split; [done|]. split; [done|]. unfold at_idx. by rewrite Ec, last_snoc.
      - right. rewrite (c_info _ _ _ _ C) in Epx. injection Epx as <-. split; [clear -Ps Nt; unfold ptr_or_str in Ps; lia|]. done.
    Qed.

    Lemma sc_upd st K D x x' : SC st K D x -> frame_info x x' -> i_fdp x' = i_fdp x ->
      SC (SSt (s_ptrs st) (<[idx := x']> (s_info st)) (s_heads st)) K D x'.
    Proof.
      intros C Fi Ef. pose proof (c_info _ _ _ _ C) as Ex. pose proof (lookup_lt_Some _ _ _ Ex) as Li. pose proof idx_nz as Iz. constructor.
      - eapply upd_inv; [apply C|exact Ex|done|done|left|done|done|done|]. intros N. destruct N. left.
      - eapply (Ext_new W par st0 K0 D0 st K D); [exact I0|lia|apply C| | | |done]; cbn [s_info].
        + intros i Hi. rewrite list_lookup_insert_ne by lia. done.
        + by rewrite insert_length.
        + intros i y Hy. destruct (Nat.eq_dec i idx) as [E|Ni].
          * subst i. rewrite list_lookup_insert in Hy by done. injection Hy as <-. exists x. split; [done|]. symmetry. apply Fi.
          * rewrite list_lookup_insert_ne in Hy by done. eauto.
      - cbn. by apply list_lookup_insert.
      - destruct Fi as (-> & _). exact (c_data _ _ _ _ C).
      - exact (c_d _ _ _ _ C).
      - exact (c_par _ _ _ _ C).
      - exact (c_kp _ _ _ _ C).
    Qed.

    Lemma sc_plain st K D x : SC st K D x -> ptr_or_str (i_type x) = false -> exists nd, lns st !! idx = Some nd /\ is_ref nd = false.
    Proof.
      intros C Ps. pose proof (c_info _ _ _ _ C) as Ex. pose proof (c_inv _ _ _ _ C) as I.
      destruct (lookup_lt_is_Some_2 (lns st) idx) as [nd En]; [rewrite <- (v_len _ _ _ _ _ I); by eapply lookup_lt_Some|].
      exists nd. split; [done|]. destruct (is_ref nd) eqn:Rn; [|done]. destruct (v_ref _ _ _ _ _ I _ _ _ Ex En Rn) as (T & _). congruence.
    Qed.

    Lemma fields_ok x : ptr_or_str (i_type x) = false -> forall fs st K D b st', SC st K D x -> at_idx st K ->
      Forall (fun f => fd_ok W f /\ f_np f = false) fs -> fields_loop rec fs data idx st = Some (b, st') ->
      b = false \/ exists K' D' L, SC st' K' D' x /\ at_idx st' K' /\ K' idx = K idx ++ L /\
        Forall2 (fun c f => kid_at st' D' (data + f_off f) f c) L fs /\
        (forall c a f, c ∈ K idx -> kid_at st D a f c -> kid_at st' D' a f c).
    Proof.
      intros Ps. induction fs as [|f fs IH]; intros st K D b st' C Ha Hf H; cbn [fields_loop] in H.
      { injection H as <- <-. right. exists K, D, []. rewrite app_nil_r. do 3 (split; [done|]). split; [constructor|done]. }
      apply Forall_cons in Hf as [[Fo Nf] Hf]. apply bind_Some in H as ([n st1] & Hr & H).
      assert (i_type x <> T_POINTER /\ i_type x <> T_STRING) as [N1 N2] by (clear -Ps; unfold ptr_or_str in Ps; lia).
      destruct (rec_step st K D x (data + f_off f) f 1 n st1) as [->|[-> (K1 & D1 & C1 & X1 & Cs)]]; try done.
      { by eapply sc_plain. }
      { unfold np_ok. by rewrite Nf. }
      { rewrite Z.mul_1_r. apply Fo. }
      { injection H as <- <-. by left. }
      cbn [Z.eqb] in H. destruct Cs as [(c & Ec & Hk & Ha1)|(? & _)]; [|done].
      destruct (IH st1 K1 D1 b st' C1 Ha1 Hf H) as [->|(K' & D' & L & C' & Ha' & EK & HL & Hold)]; [by left|]. right.
      exists K', D', (c :: L). split; [done|]. split; [done|]. rewrite EK, Ec. split; [by rewrite <- app_assoc|]. split.
      - constructor; [|done]. apply Hold; [rewrite Ec; set_solver|done].
      - intros c' a' f' Hc Hk'. apply Hold; [rewrite Ec; set_solver|]. eapply kid_ext; [apply C|exact X1|apply C|done|done|done].
    Qed.

    Lemma elems_ok x f : ptr_or_str (i_type x) = false -> fd_ok W f -> f_tdp f = f_tdp g -> forall fuel i count st K D r st', SC st K D x -> at_idx st K ->
      0 <= i <= count -> f_size f * count < 2 ^ 32 -> elems_loop rec fuel (Some data) f i count idx st = Some (r, st') ->
      r = None \/ exists K' D' L, SC st' K' D' x /\ at_idx st' K' /\ K' idx = K idx ++ L /\
        Forall2 (fun c j => kid_at st' D' (data + j * f_size f) f c) L (seqZ i (count - i)) /\
        (forall c a f, c ∈ K idx -> kid_at st D a f c -> kid_at st' D' a f c).
    Proof.
      intros Ps Fo Tf. induction fuel as [|fuel IH]; intros i count st K D r st' C Ha Hi Hs H; [done|]. cbn [elems_loop] in H.
      destruct (Z.ltb_spec i count) as [Lt|Ge].
      2:{ injection H as <- <-. right. exists K, D, []. rewrite app_nil_r. replace (count - i) with 0 by lia. do 3 (split; [done|]). split; [constructor|done]. }
      cbn [mbind option_bind] in H. apply bind_Some in H as ([n st1] & Hr & H).
      assert (i_type x <> T_POINTER /\ i_type x <> T_STRING) as [N1 N2] by (clear -Ps; unfold ptr_or_str in Ps; lia).
      assert (0 <= f_size f) as Sz by apply Fo.
      destruct (rec_step st K D x (data + i * f_size f) f (count - i) n st1) as [->|[-> (K1 & D1 & C1 & X1 & Cs)]]; try done.
      { by eapply sc_plain. }
      { intros _. right. split; [apply idx_nz|]. by rewrite (c_d _ _ _ _ C). }
      { lia. }
      { clear -Hs Hi Lt Sz. nia. }
      { injection H as <- <-. by left. }
      cbn [Z.eqb] in H. destruct Cs as [(c & Ec & Hk & Ha1)|(? & _)]; [|done].
      destruct (IH (i + 1) count st1 K1 D1 r st' C1 Ha1 ltac:(lia) Hs H) as [->|(K' & D' & L & C' & Ha' & EK & HL & Hold)]; [by left|]. right.
      exists K', D', (c :: L). split; [done|]. split; [done|]. rewrite EK, Ec. split; [by rewrite <- app_assoc|]. split.
      - rewrite (seqZ_cons i (count - i)) by lia. replace (Z.succ i) with (i + 1) by lia. replace (Z.pred (count - i)) with (count - (i + 1)) by lia.
        constructor; [|done]. apply Hold; [rewrite Ec; set_solver|done].
      - intros c' a' f' Hc Hk'. apply Hold; [rewrite Ec; set_solver|]. eapply kid_ext; [apply C|exact X1|apply C|done|done|done].
    Qed.

    (** The structure around the node. *)
    Definition encl0 : option (Z * nat) :=
      if Nat.eqb par 0 then None else
      match s_info st0 !! par with
      | Some px => if i_type px =? T_STRUCT then match f_tdp (D0 par) with Some k => Some (i_data px, k) | None => None end else None
      | None => None
      end.
    Lemma sc_encl st K D x : SC st K D x -> encl st D idx = encl0.
    Proof.
      intros C. unfold encl, encl0. rewrite (c_par _ _ _ _ C). destruct (Nat.eqb_spec par 0) as [|Pz]; [done|].
      destruct (e_anc _ _ _ _ _ _ _ (c_ext _ _ _ _ C) par Pz) as (-> & _ & -> & _); [constructor|]. done.
    Qed.
    Lemma size_field_ok st K D x r : SC st K D x -> size_field W st idx = Some r ->
      match f_szf g with
      | None => r = None
      | Some q => forall pa k t, encl0 = Some (pa, k) -> w_tds W !! k = Some t ->
        r = match find_size_fd t q with None => None | Some h => if pa + f_off h =? 0 then None else Some (pa + f_off h, h) end
      end.
    Proof.
      intros C H. pose proof (c_inv _ _ _ _ C) as I. unfold size_field in H. rewrite (rd_lu _ _ _ (c_info _ _ _ _ C)) in H. cbn [mbind option_bind] in H.
      destruct (v_fdp_o _ _ _ _ _ I idx x idx_nz ltac:(left) (c_info _ _ _ _ C)) as [Ef _]. rewrite Ef, (c_d _ _ _ _ C) in H. cbn [mbind option_bind] in H.
      destruct (f_szf g) as [q|]; [|by injection H as <-]. intros pa k t He Et.
      apply bind_Some in H as (n & En & H). unfold rd in En. pose proof (c_par _ _ _ _ C) as Pi. rewrite (parf_lu _ _ _ En) in Pi. rewrite Pi in H.
      unfold encl0 in He. destruct (Nat.eqb_spec par 0) as [|Pz]; [done|]. destruct (s_info st0 !! par) as [px|] eqn:Epx; [|done].
      destruct (i_type px =? T_STRUCT) eqn:Tp; [|done]. destruct (f_tdp (D0 par)) as [k'|] eqn:Tk; [|done]. injection He as <- <-.
      destruct (e_anc _ _ _ _ _ _ _ (c_ext _ _ _ _ C) par Pz) as (Ei & _ & Ed & _); [constructor|]. rewrite Epx in Ei.
      apply bind_Some in H as (p & Hc & H). cbn [climb_struct] in Hc. destruct (Nat.eqb_spec par 0) as [|_]; [done|].
      apply bind_Some in Hc as (pn & Epn & Hc). rewrite (rd_lu _ _ _ Ei) in Hc. cbn [mbind option_bind] in Hc. rewrite Tp in Hc. injection Hc as <-.
      destruct (Nat.eqb_spec par 0) as [|_]; [done|]. rewrite (rd_lu _ _ _ Ei) in H. cbn [mbind option_bind] in H.
      assert (exists h, i_fdp px = Some h /\ f_tdp h = Some k') as (h & Eh & Th).
      { rewrite <- Tk, <- Ed. destruct (decide (par ∈ idx :: O)) as [Ho|Ho].
        - destruct (v_fdp_o _ _ _ _ _ I par px Pz Ho Ei) as [-> _]. eauto.
        - destruct (v_fdp_c _ _ _ _ _ I par px Pz Ho Ei) as (h & -> & _ & ? & _). eauto. }
      rewrite Eh in H. cbn [mbind option_bind] in H. rewrite Th in H. rewrite (rd_lu _ _ _ Et) in H. cbn [mbind option_bind] in H.
      destruct (find_size_fd t q); [|by injection H as <-]. by injection H as <-.
    Qed.

    Lemma elem_count_ok st K D x e c : SC st K D x -> 0 <= f_dim0 g -> elem_count W st idx (f_dim0 g) e = Some c ->
      0 <= c <= f_dim0 g /\
      match f_szf g with
      | None => c = f_dim0 g
      | Some q => forall pa k t, encl0 = Some (pa, k) -> w_tds W !! k = Some t ->
        match find_size_fd t q with
        | None => c = f_dim0 g
        | Some h => if pa + f_off h =? 0 then c = f_dim0 g else
            exists v, w_int W (pa + f_off h) h = Some (Some v) /\ c = if s64 v <=? 0 then 0 else Z.min (f_dim0 g) (w32 (s64 v / e))
        end
      end.
    Proof.
      intros C Dz H. unfold elem_count in H. apply bind_Some in H as (r & Hr & H). pose proof (size_field_ok _ _ _ _ _ C Hr) as Hs. clear Hr.
      assert (forall z, 0 <= w32 z) as Wp by (intros z; unfold w32; by apply Z.mod_pos_bound).
      split.
      - destruct r as [[a h]|]; [|injection H as <-; lia]. apply bind_Some in H as (v & _ & H). apply bind_Some in H as (v' & _ & H).
        destruct (s64 v' <=? 0); [injection H as <-; lia|]. destruct (e =? 0); [done|]. injection H as <-. pose proof (Wp (s64 v' / e)).
        destruct (Z.ltb_spec (w32 (s64 v' / e)) (f_dim0 g)); lia.
      - destruct (f_szf g) as [q|]; [|subst r; by injection H as <-]. intros pa k t He Et. specialize (Hs pa k t He Et).
        destruct (find_size_fd t q) as [h|]; [|subst r; by injection H as <-]. destruct (pa + f_off h =? 0); [subst r; by injection H as <-|].
        subst r. apply bind_Some in H as (v & Hv & H). apply bind_Some in H as (v' & Ev & H). subst v. exists v'. split; [done|].
        destruct (s64 v' <=? 0); [by injection H as <-|]. destruct (e =? 0); [done|]. injection H as <-.
        destruct (Z.ltb_spec (w32 (s64 v' / e)) (f_dim0 g)); lia.
    Qed.

    Lemma handle_ok st K D x n st' : SC st K D x -> K idx = [] -> cache (s_ptrs st) = idx ->
      (exists nd, lns st !! idx = Some nd /\ is_ref nd = false) -> i_null x = false -> i_opaque x = false ->
      handle W rec (f_type g) idx st = Some (n, st') ->
      n = 0 \/ n = 1 /\ exists K' D' x', SC st' K' D' x' /\ node_ok W st' K' D' idx x' /\ anc (parf (lns st')) (cache (s_ptrs st')) idx.
    Proof.
      intros C Ki Ca Nr Nl Op H. pose proof (c_inv _ _ _ _ C) as I. pose proof (c_info _ _ _ _ C) as Ex. pose proof (c_d _ _ _ _ C) as Dg.
      destruct (v_fdp_o _ _ _ _ _ I idx x idx_nz ltac:(left) Ex) as [Ef _]. rewrite Dg in Ef.
      destruct (v_id _ _ _ _ _ I idx x idx_nz Ex) as (Tx & _ & Ax & Fo & Cr & Sx). rewrite Dg in *.
      pose proof (c_data _ _ _ _ C) as Da. rewrite <- Tx in H. unfold handle in H.
      assert (at_idx st K) as Hat. { unfold at_idx. rewrite Ki, Ca. constructor. }
      assert (anc (parf (lns st)) (cache (s_ptrs st)) idx) as An by (rewrite Ca; constructor).
      destruct ((i_type x =? T_FUNC) || (i_type x =? T_FUNC_TYPE)) eqn:TF.
      { unfold save_func in H. rewrite (rd_lu _ _ _ Ex) in H. cbn [mbind option_bind] in H. apply bind_Some in H as (p & Hp & H).
        assert (exists x', frame_info x x' /\ i_fdp x' = i_fdp x /\ i_null x' = (p =? 0) /\ n = 1 /\
          (st' = st /\ x' = x \/ st' = SSt (s_ptrs st) (<[idx := x']> (s_info st)) (s_heads st))) as (x' & Fr & F1 & F2 & -> & Hx).
        { destruct (p =? 0) eqn:Pz.
          - rewrite (upd_info_eq _ _ _ _ Ex) in H. injection H as <- <-. exists (set_null x). split; [done|]. do 3 (split; [done|]). by right.
          - injection H as <- <-. exists x. split; [done|]. do 3 (split; [done|]). by left. }
        right. split; [done|]. exists K, D, x'. assert (SC st' K D x') as C'.
        { destruct Hx as [[-> ->]| ->]; [done|]. by apply (sc_upd _ _ _ x). }
        split; [done|]. destruct Fr as (Fd & Ft & _). split.
        - split; [intros Hx'; rewrite Ft, TF, orb_true_r in Hx'; done|]. unfold node_body. rewrite Ft, Fd, TF. assert (forall t, t <> T_FUNC -> t <> T_FUNC_TYPE -> (i_type x =? t) = false) as Q by (clear -TF; intros; lia).
          rewrite !Q by done. replace (union_type (i_type x)) with false by (clear -TF; apply orb_true_iff in TF as [E|E]; apply Z.eqb_eq in E; by rewrite E). split; [done|]. eauto.
        - by destruct Hx as [[-> ->]| ->]. }
      destruct (Z.eqb_spec (i_type x) T_STRING) as [Ts|Ns].
      { unfold save_string in H. rewrite (rd_lu _ _ _ Ex) in H. cbn [mbind option_bind] in H. apply bind_Some in H as (p & Hp & H).
        destruct (p =? 0) eqn:Pz.
        - rewrite (upd_info_eq _ _ _ _ Ex) in H. injection H as <- <-. right. split; [done|]. exists K, D, (set_null x).
          split; [by apply (sc_upd _ _ _ x)|]. split; [|done]. split; [intros Hx'; cbn [i_type set_null] in Hx'; rewrite Ts in Hx'; done|]. unfold node_body. cbn [i_type i_data i_null set_null]. rewrite Ts. cbn.
          exists p. split; [done|]. split; [by rewrite Pz|]. clear -Pz. lia.
        - rewrite Ef in H. cbn [mbind option_bind] in H. rewrite Da in Hp.
          eapply rec_step in H; [|exact C|done|by rewrite Ts|done| | |done| |].
          + destruct H as [->|[-> (K' & D' & C' & X' & Cs)]]; [by left|]. right. split; [done|]. exists K', D', x. split; [done|]. split.
            * split; [by intros _|]. unfold node_body. rewrite Ts. cbn. exists p. rewrite Da. split; [done|]. rewrite Pz. split; [done|]. intros _. unfold done_at.
              destruct Cs as [(c & -> & _)|(_ & _ & Hn & _)]; [left; by rewrite Ki|by right].
            * destruct Cs as [(c & _ & _ & Ha')|(_ & _ & _ & Hc)].
              -- by destruct (at_hit _ _ _ _ C' Ha').
              -- rewrite Hc, Ca. constructor.
          + unfold fd_ok, leaf_ok. cbn. split; [lia|]. split; [done|]. repeat split; done || lia.
          + intros _. right. split; [apply idx_nz|]. by rewrite Dg.
          + done.
          + intros _. rewrite Ki. repeat split; try done. clear -Pz. lia. }
      destruct (Z.eqb_spec (i_type x) T_ENUM) as [Te|Ne].
      { unfold save_enum in H. rewrite (rd_lu _ _ _ Ex) in H. cbn [mbind option_bind] in H. rewrite Ef in H. cbn [mbind option_bind] in H.
        assert (n = 1 /\ (st' = st \/ exists v, st' = SSt (s_ptrs st) (<[idx := set_aux x v]> (s_info st)) (s_heads st))) as [-> Hx].
        { destruct ((6 <=? i_aux x) && (i_aux x <=? 15)); [injection H as <- <-; split; [done|by left]|].
          destruct (f_tdp g) as [k|].
          - apply bind_Some in H as (t & _ & H). rewrite (upd_info_eq _ _ _ _ Ex) in H. injection H as <- <-. split; [done|]. right. eauto.
          - rewrite (upd_info_eq _ _ _ _ Ex) in H. injection H as <- <-. split; [done|]. right. eauto. }
        right. split; [done|]. destruct Hx as [->|[v ->]].
        - exists K, D, x. split; [done|]. split; [|done]. split; [by intros _|]. unfold node_body. by rewrite Te.
        - exists K, D, (set_aux x v). split.
          + apply (sc_upd _ _ _ x); [done| |done]. unfold frame_info. cbn. rewrite Te. repeat split; done.
          + split; [|done]. split; [by intros _|]. unfold node_body. cbn [i_type set_aux]. by rewrite Te. }
      destruct (Z.eqb_spec (i_type x) T_STRUCT) as [Tt|Nt].
      { unfold save_struct in H. rewrite (rd_lu _ _ _ Ex) in H. cbn [mbind option_bind] in H. rewrite Ef in H. cbn [mbind option_bind] in H.
        apply bind_Some in H as (k & Hk & H). apply bind_Some in H as (t & Et & H). apply bind_Some in H as ([b st1] & Hl & H). injection H as <- <-.
        rewrite Da in Hl. destruct (HW k t Et) as (_ & Hf & _).
        destruct (fields_ok x ltac:(by rewrite Tt) _ _ _ _ _ _ C Hat Hf Hl) as [->|(K' & D' & L & C' & Ha' & EK & HL & _)]; [by left|].
        destruct b; [|by left]. right. split; [done|]. exists K', D', x. split; [done|]. split; [|by destruct (at_hit _ _ _ _ C' Ha')].
        split; [by intros _|]. unfold node_body. rewrite Tt. cbn. exists k, t. rewrite (c_d _ _ _ _ C'), EK, Ki, Da. split; [done|]. split; [done|]. exact HL. }
      destruct (Z.eqb_spec (i_type x) T_ARRAY) as [Ta|Na].
      { unfold save_array in H. rewrite (rd_lu _ _ _ Ex) in H. cbn [mbind option_bind] in H. rewrite Ef in H. cbn [mbind option_bind] in H.
        pose proof Fo as [Fs [_ Fa]]. rewrite <- Tx, Ta, Z.eqb_refl in Fa. destruct Fa as (Fd & Fm & Fx & _).
        destruct (f_dim0 g =? 0) eqn:Dz.
        { injection H as <- <-. right. split; [done|]. exists K, D, x. split; [done|]. split; [|done]. split; [by intros _|]. unfold node_body. rewrite Ta. cbn.
          exists 0. unfold in_use. rewrite Dg, Dz, Ki. split; [done|]. constructor. }
        destruct (f_size g =? 0) eqn:Sz; [injection H as <- <-; by left|]. cbv zeta in H. rewrite elem_fd_part in H by congruence.
        assert (f_dim0 g <> 0) as Dz' by (clear -Dz; lia). assert (fd_ok W (part g)) as Fp by (apply fd_ok_part; congruence).
        apply bind_Some in H as ([cnt st1] & Hc & H). apply bind_Some in H as ([r st2] & Hl & H). injection H as <- <-.
        assert (0 <= cnt <= f_dim0 g /\ in_use W encl0 g cnt /\ exists x1, SC st1 K D x1 /\ i_type x1 = T_ARRAY /\ i_null x1 = false /\ s_ptrs st1 = s_ptrs st) as (Bc & Us & x1 & C1 & T1 & Nl1 & Ep1).
        { unfold in_use. rewrite Dz. destruct (Nat.eqb (f_dims g) 1) eqn:D1; cbn [andb negb orb] in *; [|injection Hc as <- <-; split; [clear -Fm; lia|]; split; [done|]; by exists x].
          destruct (f_np g) eqn:Ng; cbn [andb negb orb] in *; [injection Hc as <- <-; split; [clear -Fm; lia|]; split; [done|]; by exists x|].
          apply bind_Some in Hc as (c & Hc & H2). destruct (elem_count_ok _ _ _ _ _ _ C Fm Hc) as (B & U).
          rewrite (upd_info_eq _ _ _ _ Ex) in H2. injection H2 as <- <-. split; [done|]. split.
          - destruct (f_szf g); [|done]. split; [done|]. exact U.
          - exists (set_size x (w32 (c * f_size (part g)))). split; [|done]. apply (sc_upd _ _ _ x); [done| |done]. unfold frame_info. cbn. by rewrite Ta. }
        rewrite Da in Hl.
        assert (f_size (part g) * cnt < 2 ^ 32) as Room.
        { cbn [part f_size]. pose proof (Z.mul_div_le (f_size g) (f_dim0 g)). assert (0 <= f_size g / f_dim0 g) as Q by (apply Z.div_pos; clear -Fs Fm Dz'; lia).
          clear -H Q Bc Fs Dz' Fm. nia. }
        assert (at_idx st1 K) as Ha1. { unfold at_idx, lns in *. by rewrite Ep1. }
        destruct (elems_ok x1 (part g) ltac:(by rewrite T1) Fp eq_refl _ _ _ _ _ _ _ _ C1 Ha1 (conj (Z.le_refl 0) (proj1 Bc)) Room Hl) as [->|(K' & D' & L & C' & Ha' & EK & HL & _)]; [by left|].
        destruct r; [|by left]. right. split; [done|]. exists K', D', x1. split; [done|]. split; [|by destruct (at_hit _ _ _ _ C' Ha')].
        split; [by intros _|]. unfold node_body. rewrite T1. cbn [Z.eqb]. change (T_ARRAY =? T_STRUCT) with false. rewrite Z.eqb_refl. exists cnt.
        rewrite (c_d _ _ _ _ C'), EK, Ki, (sc_encl _ _ _ _ C'), (c_data _ _ _ _ C'). split; [done|]. cbn [app]. by rewrite Z.sub_0_r in HL. }
      destruct (Z.eqb_spec (i_type x) T_POINTER) as [Tp|Np].
      { unfold save_pointer in H. rewrite (rd_lu _ _ _ Ex) in H. cbn [mbind option_bind] in H. apply bind_Some in H as (p & Hp & H).
        destruct (p =? 0) eqn:Pz.
        - rewrite (upd_info_eq _ _ _ _ Ex) in H. injection H as <- <-. right. split; [done|]. exists K, D, (set_null x).
          split; [by apply (sc_upd _ _ _ x)|]. split; [|done]. split; [intros Hx'; cbn [i_type set_null] in Hx'; rewrite Tp in Hx'; done|]. unfold node_body. cbn [i_type i_data i_null i_opaque set_null]. rewrite Tp. cbn.
          exists p. by rewrite Pz.
        - rewrite Ef in H. cbn [mbind option_bind] in H. apply bind_Some in H as (es & He & H). apply bind_Some in H as (r & Hr & H).
          pose proof Fo as [_ [_ Fl]]. rewrite <- Tx, Tp in Fl. change (T_POINTER =? T_ARRAY) with false in Fl. destruct Fl as (_ & _ & Fl).
          destruct (Fl eq_refl) as (Fz & Fq & _).
          pose proof (size_field_ok _ _ _ _ _ C Hr) as Hs. rewrite Fz in Hs. subst r. cbn [mbind option_bind] in H. rewrite Fq in H. cbv zeta in H.
          rewrite (upd_info_eq _ _ _ _ Ex) in H. injection H as <- <-. right. split; [done|].
          change (i_opaque (set_size x es)) with (i_opaque x). rewrite Op. cbn [negb andb]. rewrite Z.ltb_irrefl, orb_false_r.
          assert (unit_size W (f_aux g) (f_tdp g) = Some es) as Us.
          { rewrite <- Ax by (rewrite Tp; done). unfold target_size in He. unfold unit_size. destruct (type_size (i_aux x) =? 0); [|done].
            destruct (f_tdp g); [|done]. apply bind_Some in He as (t & Et & He). unfold rd in Et. by rewrite Et. }
          eexists K, D, _. split; [apply (sc_upd _ _ _ x); [done| |by destruct (es =? 0)]|].
          { unfold frame_info. rewrite Tp. destruct (es =? 0); cbn; repeat split; done. }
          split; [|done]. split; [intros Hx'; destruct (es =? 0); cbn [i_type set_null set_size] in Hx'; rewrite Tp in Hx'; done|]. unfold node_body. destruct (es =? 0) eqn:Ez; cbn [i_type i_data i_null i_opaque i_size set_null set_size]; rewrite Tp; cbn;
            exists p; rewrite Pz, Dg, Ez; repeat split; done. }
      destruct (union_type (i_type x)) eqn:Tu.
      { unfold save_union in H. rewrite (rd_lu _ _ _ Ex) in H. cbn [mbind option_bind] in H. rewrite Ef in H. cbn [mbind option_bind] in H.
        change (match f_tdp g ≫= (fun k => t ← rd (w_tds W) k; d ← w_disc W (i_data x) k; rd (t_fields t) d) with
                | Some g' => rec (i_data x + f_off g') g' 1 st idx | None => Some (1, st) end = Some (n, st')) in H.
        assert (ptr_or_str (i_type x) = false) as Ps by (unfold ptr_or_str; clear -Np Ns; lia).
        assert (forall K D st, D idx = g -> node_body W st K D idx x <-> match f_tdp g ≫= (fun k => t ← rd (w_tds W) k; d ← w_disc W (i_data x) k; rd (t_fields t) d) with
                | Some g' => exists c, K idx = [c] /\ kid_at st D (i_data x + f_off g') g' c | None => K idx = [] end) as Nu.
        { intros K1 D1 s1 E1. unfold node_body. rewrite Tu, E1. destruct (Z.eqb_spec (i_type x) T_STRUCT); [done|]. by destruct (Z.eqb_spec (i_type x) T_ARRAY). }
        destruct (f_tdp g ≫= _) as [g'|] eqn:Eg.
        - apply bind_Some in Eg as (k & _ & Eg). apply bind_Some in Eg as (t & Et & Eg). apply bind_Some in Eg as (d & _ & Eg). unfold rd in *.
          destruct (HW k t Et) as (_ & Hf & _). rewrite Forall_lookup in Hf. destruct (Hf _ _ Eg) as [Fg Ng].
          assert (i_type x <> T_POINTER /\ i_type x <> T_STRING) as [N1 N2] by done.
          eapply rec_step in H; [|exact C|done|done|done|done| |done| |done].
          + destruct H as [->|[-> (K' & D' & C' & X' & Cs)]]; [by left|]. right. split; [done|]. exists K', D', x. split; [done|].
            destruct Cs as [(c & Ec & Hk & Ha')|(? & _)]; [|done]. split; [|by destruct (at_hit _ _ _ _ C' Ha')].
            split; [by intros _|]. apply Nu; [by rewrite (c_d _ _ _ _ C')|]. exists c. rewrite Ec, Ki. done.
          + unfold np_ok. by rewrite Ng.
          + rewrite Z.mul_1_r. apply Fg.
        - injection H as <- <-. right. split; [done|]. exists K, D, x. split; [done|]. split; [|done]. split; [by intros _|]. by apply Nu. }
      injection H as <- <-. right. split; [done|]. exists K, D, x. split; [done|]. split; [|done]. split; [by intros _|]. unfold node_body. rewrite TF, Tu.
      destruct (Z.eqb_spec (i_type x) T_STRUCT); [done|]. destruct (Z.eqb_spec (i_type x) T_ARRAY); [done|].
      destruct (Z.eqb_spec (i_type x) T_POINTER); [done|]. by destruct (Z.eqb_spec (i_type x) T_STRING).
    Qed.

    (** The node is added and its members are saved. *)
    Lemma added_ok st K D x n st' : SC st K D x -> K idx = [] -> cache (s_ptrs st) = idx ->
      (exists nd, lns st !! idx = Some nd /\ is_ref nd = false) -> i_null x = false -> i_opaque x = false ->
      (r ← handle W rec (f_type g) idx st;
       let '(n, st) := (r : Z * sst) in
       x ← rd (s_info st) idx;
       nd ← rd (lns st) idx;
       fdp ← persistent_fd W st (i_fdp x) (parent nd);
       st ← upd_info st idx (fun y => set_fdp y fdp);
       Some (n, st)) = Some (n, st') ->
      n = 0 \/ n = 1 /\ exists K' D', Inv W st' K' D' O /\ Ext par st0 K0 D0 st' K' D' /\ kid_at st' D' data g idx /\
        anc (parf (lns st')) (cache (s_ptrs st')) idx /\ (par <> 0%nat -> K' par = K0 par ++ [idx]).
    Proof.
      intros C Ki Ca Nr Nl Op H. apply bind_Some in H as ([n1 st1] & Hh & H). apply bind_Some in H as (x1 & Ex1 & H). apply bind_Some in H as (nd & End & H).
      apply bind_Some in H as (h & Hp & H). unfold rd in *. rewrite (upd_info_eq _ _ _ _ Ex1) in H. injection H as <- <-.
      destruct (handle_ok _ _ _ _ _ _ C Ki Ca Nr Nl Op Hh) as [->|[-> (K' & D' & x' & C' & No & An)]]; [by left|]. right. split; [done|].
      rewrite (c_info _ _ _ _ C') in Ex1. injection Ex1 as <-. pose proof (c_info _ _ _ _ C') as Ex1. pose proof (lookup_lt_Some _ _ _ Ex1) as Li.
      exists K', D'. split.
      { eapply close_inv; [done|apply C'| |done|exact End|apply idx_nz|done|done]. intros Ho. apply (v_open _ _ _ _ _ I0) in Ho as [_ Ho].
        rewrite <- (v_len _ _ _ _ _ I0) in Ho. lia. }
      split.
      { eapply (Ext_new W par st0 K0 D0 st1 K' D'); [exact I0|lia|apply C'| | | |done]; cbn [s_info].
        + intros i Hi. rewrite list_lookup_insert_ne by lia. done.
        + by rewrite insert_length.
        + intros i y Hy. destruct (Nat.eq_dec i idx) as [E|Ni].
          * subst i. rewrite list_lookup_insert in Hy by done. injection Hy as <-. exists x'. split; done.
          * rewrite list_lookup_insert_ne in Hy by done. eauto. }
      split; [|split; [done|]].
      - split; [apply C'|]. cbn. rewrite list_lookup_insert by done. exists (set_fdp x' h). split; [done|]. exact (c_data _ _ _ _ C').
      - exact (c_kp _ _ _ _ C').
    Qed.
  End Handlers.

  Lemma head_reach st K D O a : Inv W st K D O -> forall i x, i <> 0%nat -> s_info st !! i = Some x -> i_data x = a -> reach (s_info st) (s_heads st (key a)) i.
  Proof. intros I i x I0 E <-. by apply (v_chain _ _ _ _ _ I). Qed.

  Lemma add_node_ok rec data f count st par n st' K D O h : RecOK rec -> Pre st K D O par data f count -> h = s_heads st (key data) ->
    (forall px, s_info st !! par = Some px -> ptr_or_str (i_type px) = true ->
       forall i y, reach (s_info st) (s_heads st (key data)) i -> s_info st !! i = Some y -> same_typed y (new_info data f count) = false) ->
    add_node W rec data f count h st par = Some (n, st') -> n = 0 \/ n = 1 /\ Post st K D O par data f st'.
  Proof.
    intros HR (I & P & (npar & Ep & Rp) & px & Epx & Oa & Po & Hit & Fo & Np & Cn & Sz & Ct) -> Un H.
    destruct (push_inv W st K D O par npar px f data count) as (p & Ea & Ec & I1 & X1 & P1 & K1 & N1); try done.
    { intros Ps. destruct (Ct Ps) as (C1 & C2 & C3 & C4 & C5 & C6). repeat split; try done. intros T. by apply C6. }
    { intros T i y I0 Ey Dy Ty M Cm. specialize (Un px Epx T i y (head_reach _ _ _ _ _ I i y I0 Ey Dy) Ey).
      assert (same_typed y (new_info data f count) = true) as Q; [|congruence]. by apply (same_typed_alike W st K D O i y f data count I I0 Ey). }
    unfold add_node in H. cbv zeta in H. rewrite Ea in H. cbn [mbind option_bind] in H. set (idx := length (s_info st)) in *.
    set (x0 := set_chain (new_info data f count) (s_heads st (key data))) in *.
    set (K' := fset K par (K par ++ [idx])) in *. set (D' := dset D idx f) in *. set (st1 := SSt p _ _) in *.
    assert ((par < idx)%nat) as Lp by (eapply lookup_lt_Some; exact Epx).
    assert (SC st K D O par idx f data st1 K' D' x0) as C.
    { constructor; [exact I1|exact X1| |done|apply dset_same|exact P1|].
      + unfold st1. cbn. rewrite lookup_app_r by done. unfold idx. by rewrite Nat.sub_diag.
      + intros _. unfold K'. by rewrite fset_same. }
    eapply (added_ok rec HR st K D O par idx f data I eq_refl Lp Oa ltac:(done) st1 K' D' x0 n st' C K1 Ec N1 eq_refl eq_refl) in H.
    destruct H as [->|[-> (K2 & D2 & I2 & X2 & Hk & Ha & Ek)]]; [by left|]. right. split; [done|]. exists K2, D2. split; [done|]. split; [done|]. left.
    exists idx. split; [by apply Ek|]. done.
  Qed.

  Lemma save_step_ok rec : RecOK rec -> RecOK (save_step W rec).
  Proof.
    intros HR data f count st par n st' K D O Hp H. unfold save_step in H. cbv zeta in H.
    pose proof Hp as (I & P & _ & px & Epx & _).
    destruct (Nat.eqb_spec (s_heads st (key data)) 0) as [Hz|Hz].
    { eapply add_node_ok in H; [done|done|exact Hp|done|]. intros px' _ _ i y Hr. rewrite Hz in Hr. inversion Hr; subst; done. }
    apply bind_Some in H as ([[b n1] st1] & Hm & H). destruct (ptr_or_str (i_type px)) eqn:Ps.
    - destruct (matched_ps rec _ _ _ _ _ _ _ _ Hp px Epx Ps _ _ _ _ _ Hm) as [(-> & -> & Hn)|(-> & -> & Hq)].
      + eapply add_node_ok in H; [done|done|exact Hp|done|]. intros px' _ _ i y Hr Ey. by eapply Hn.
      + injection H as <- <-. by right.
    - destruct (matched_member rec _ _ _ _ _ _ _ _ Hp px Epx Ps _ _ _ _ _ Hm) as [(-> & ->)|(-> & -> & Hq)].
      + eapply add_node_ok in H; [done|done|exact Hp|done|]. intros px' Epx' T. rewrite Epx in Epx'. injection Epx' as <-. congruence.
      + injection H as <- <-. by right.
  Qed.

  Theorem save_inner_ok fuel : RecOK (save_inner W fuel).
  Proof. induction fuel as [|fuel IH]; [done|]. by apply save_step_ok. Qed.
End Run.
