(** The loop over the pointers (src/mr_save.c:1577-1591). *)
From stdpp Require Import sets.
From Verif Require Import Base Ptrs ChildrenProof Save SaveForest SaveSpec SaveInv SaveSteps SaveRun.
Local Open Scope Z_scope.

Lemma type_size_bound t : 0 <= type_size t <= 32.
Proof.
  unfold type_size. destruct (t <? 0); [lia|]. generalize (Z.to_nat t). intros n.
  do 29 (destruct n as [|n]; [cbn; lia|]). destruct n; cbn; lia.
Qed.

Section Top.
  Context (W : world) (HW : wf_world W).

  Lemma unit_size_bound t k u : unit_size W t k = Some u -> 0 <= u < 2 ^ 32.
  Proof.
    unfold unit_size. pose proof (type_size_bound t). destruct (type_size t =? 0).
    - destruct k as [k|]; [|intros [= <-]; lia]. destruct (w_tds W !! k) eqn:E; [|done]. intros [= <-]. by apply (HW k).
    - intros [= <-]. lia.
  Qed.

  (** ** The root *)
  Lemma init_inv D : Inv W save_init (fun _ => []) D [].
  Proof.
    assert (forall i n, lns save_init !! i = Some n -> i = 0%nat /\ n = fresh_node) as L.
    { intros [|i] n E; [by injection E as <-|by destruct i]. }
    assert (forall i x, i <> 0%nat -> s_info save_init !! i = Some x -> False) as Z0.
    { intros [|[|i]] x Iz E; done. }
    constructor; try (intros; exfalso; eauto; fail).
    - done.
    - constructor; cbn.
      + lia.
      + exists fresh_node. done.
      + intros i n E. destruct (L i n E) as [_ ->]. cbn. lia.
      + intros i n E. destruct (L i n E) as [_ ->]. done.
      + intros p c. split; [by intros ?%elem_of_nil|]. intros (? & ? & _). lia.
      + constructor.
      + intros. lia.
      + intros i n Iz E. destruct (L i n E) as [-> _]. done.
    - intros o Ho. by apply elem_of_nil in Ho.
    - intros i x n Ex En Rn. destruct (L i n En) as [_ ->]. done.
    - intros p q c d xp xq xc xd _ Hc. by apply elem_of_nil in Hc.
  Qed.

  Definition root_state (g : fd) (data : Z) : sst :=
    SSt (Ptrs [fresh_node; set_parent (new_link g 0) 0] 1) [Info 0 None T_NONE 0 false false false false 0 0; set_chain (new_info data g 1) 0]
      (fun k => if k =? key data then 1%nat else 0%nat).

  Lemma root_inv g data : fd_ok W g -> np_ok W (fun _ => g) 0 g -> Inv W (root_state g data) (fun _ => []) (fun _ => g) [1%nat].
  Proof.
    intros Fo Np. set (st := root_state g data).
    assert (forall i n, lns st !! i = Some n -> i = 0%nat /\ n = fresh_node \/ i = 1%nat /\ n = set_parent (new_link g 0) 0) as L.
    { intros [|[|i]] n E; [left|right|by destruct i]; by injection E as <-. }
    assert (forall i x, i <> 0%nat -> s_info st !! i = Some x -> i = 1%nat /\ x = set_chain (new_info data g 1) 0) as X.
    { intros [|[|i]] x Iz E; [done| |by destruct i]. by injection E as <-. }
    constructor.
    - done.
    - constructor; cbn.
      + lia.
      + exists fresh_node. done.
      + intros i n E. destruct (L i n E) as [[_ ->]|[_ ->]]; cbn; lia.
      + intros i n E. destruct (L i n E) as [[_ ->]|[_ ->]]; done.
      + intros p c. split; [by intros ?%elem_of_nil|]. intros (C0 & C1 & P0 & Pf). destruct c as [|[|c]]; [done| |lia]. unfold parf in Pf. cbn in Pf. done.
      + constructor.
      + intros i Iz Li. destruct i as [|[|i]]; [done| |lia]. exists 0%nat. by constructor.
      + intros i n Iz E. destruct (L i n E) as [[? _]|[-> ->]]; done.
    - intros o ->%elem_of_list_singleton. cbn. lia.
    - intros i x Iz E. destruct (X i x Iz E) as [-> ->]. unfold id_ok. cbn. do 5 (split; [done|]). intros Hs.
      destruct Fo as (Fs & _ & Fo). destruct (Z.eqb_spec (f_type g) T_ARRAY) as [E1|]; [by rewrite E1 in Hs|]. destruct Fo as (_ & Fu & _).
      destruct (Fu Hs) as (u & Hu & Lu). exists u. split; [done|]. rewrite Z.mul_1_r. by rewrite w32_small.
    - intros i x Iz _ E. destruct (X i x Iz E) as [-> ->]. split; done.
    - intros i x Iz Hi E. destruct (X i x Iz E) as [-> ->]. destruct Hi. left.
    - intros i x Iz Hi E. destruct (X i x Iz E) as [-> ->]. destruct Hi. left.
    - intros i x n _ En Rn. destruct (L i n En) as [[_ ->]|[_ ->]]; done.
    - intros i x _ _ _. by left.
    - intros i x Iz E. destruct (X i x Iz E) as [-> ->]. cbn. rewrite Z.eqb_refl. by constructor.
    - intros p q c d xp xq xc xd _ Hc. by apply elem_of_nil in Hc.
  Qed.

  Lemma root_ok data f depth n st : wf_root W f -> save_inner W depth data (root_fd f) 1 save_init 0%nat = Some (n, st) ->
    n = 0 \/ n = 1 /\ exists K D, Inv W st K D [] /\ Ext 0 save_init (fun _ => []) (fun _ => root_fd f) st K D /\ kid_at st D data (root_fd f) 1.
  Proof.
    intros [Fo Hn] H. destruct depth as [|depth]; [done|]. cbn [save_inner] in H. unfold save_step in H. cbn [s_heads save_init Nat.eqb] in H.
    set (g := root_fd f) in *. assert (fd_ok W g) as Fg by (by destruct f).
    assert (np_ok W (fun _ => g) 0 g) as Ng. { intros Q. left. split; [done|]. apply Hn. by destruct f. }
    pose proof (root_inv g data Fg Ng) as I1. pose proof (init_inv (fun _ => g)) as I0.
    assert (SC W save_init (fun _ => []) (fun _ => g) [] 0 1 g data (root_state g data) (fun _ => []) (fun _ => g) (set_chain (new_info data g 1) 0)) as C.
    { constructor; try done. constructor.
      - cbn. lia.
      - intros [|i] x E; [|by destruct i]. injection E as <-. eexists. split; [done|]. done.
      - intros [|i] x Iz E; [done|by destruct i].
      - done.
      - intros i Iz Li. cbn in Li. lia.
      - intros i Iz A. apply (anc_of_zero _ _ (v_for _ _ _ _ _ I0)) in A. done.
      - intros [|i] x Iz E; [done|by destruct i].
      - intros i x Li E _. cbn in Li. destruct i as [|[|i]]; [lia| |by destruct i]. intros [?|(nd & End & Rn)]; [done|]. injection End as <-. done. }
    eapply (added_ok W HW (save_inner W depth) (save_inner_ok W HW depth) save_init (fun _ => []) (fun _ => g) [] 0 1 g data I0 eq_refl
              Nat.lt_0_1 ltac:(by intros o ?%elem_of_nil) ltac:(done) _ _ _ _ n st C) in H; try done.
    - destruct H as [->|[-> (K & D & I & X & Hk & _)]]; [by left|]. right. split; [done|]. exists K, D. done.
    - eexists. split; done.
  Qed.

  (** ** Pointers in turn *)
  Record FI (data : Z) (g : fd) (st : sst) (K : nat -> list nat) (D : nat -> fd) (i : nat) : Prop := {
    l_inv : Inv W st K D [];
    l_root : kid_at st D data g 1;
    l_par : parf (lns st) 1 = 0%nat;
    l_before : forall j x, j <> 0%nat -> s_info st !! j = Some x -> i_type x = T_POINTER -> (j < i)%nat -> (done_at st K j <-> followed x = true);
    l_after : forall j x, s_info st !! j = Some x -> i_type x = T_POINTER -> (i <= j)%nat -> ~ done_at st K j }.

  Lemma content_ok' x h k : i_fdp x = Some h -> content_fd W x = Some k ->
    k = FD (i_aux x) (f_base h) 0 (f_size k) (f_tdp h) 0 0 0 0 true true false None /\ unit_size W (i_aux x) (f_tdp h) = Some (f_size k).
  Proof.
    intros E H. unfold content_fd, target_size in H. rewrite E in H. apply bind_Some in H as (s & Hs & H). injection H as <-. split; [done|]. cbn.
    unfold unit_size. destruct (type_size (i_aux x) =? 0); [|done]. destruct (f_tdp h); [|done]. apply bind_Some in Hs as (t & Et & Hs). unfold rd in Et. by rewrite Et.
  Qed.

  Lemma follow_step data g st K D i x n st' depth : FI data g st K D i -> i <> 0%nat -> s_info st !! i = Some x -> followed x = true ->
    save_pointer_content W (save_inner W depth) i st = Some (n, st') -> n = 0 \/ exists K' D', FI data g st' K' D' (S i).
  Proof.
    intros F Iz Ex Fl H. pose proof (l_inv _ _ _ _ _ _ F) as I. unfold followed in Fl. rewrite !andb_true_iff, !negb_true_iff, orb_false_iff in Fl.
    destruct Fl as (((Tx & Nv) & Nn) & Nl & Op). apply Z.eqb_eq in Tx. apply Z.eqb_neq in Nv, Nn.
    pose proof (l_after _ _ _ _ _ _ F i x Ex Tx (Nat.le_refl _)) as Nd.
    destruct (v_fdp_c _ _ _ _ _ I i x Iz (not_elem_of_nil _) Ex) as (h & Eh & Nh & Th & Bh & _).
    pose proof (proj2 (v_node _ _ _ _ _ I i x Iz (not_elem_of_nil _) Ex)) as No. unfold node_body in No. rewrite Tx in No. cbn in No.
    destruct No as (p & Wp & _ & No). destruct (Z.eqb_spec p 0) as [Pz|Pz]; [congruence|]. destruct No as [Us Ns]. rewrite Nl in Ns. symmetry in Ns. apply Z.eqb_neq in Ns.
    destruct (v_id _ _ _ _ _ I i x Iz Ex) as (Td & _ & Ax & Fo & _). specialize (Ax ltac:(rewrite Tx; done)).
    unfold save_pointer_content in H. rewrite (rd_lu _ _ _ Ex) in H. cbn [mbind option_bind] in H. apply bind_Some in H as (k & Hk & H).
    destruct (content_ok' x h k Eh Hk) as [Ek Uk]. rewrite Th, Ax, Us in Uk. injection Uk as Sk. rewrite <- Sk in H.
    replace (i_size x =? 0) with false in H by (symmetry; by apply Z.eqb_neq). cbv zeta in H. rewrite Z.div_same in H by done.
    assert (exists nd, lns st !! i = Some nd /\ is_ref nd = false /\ first_child nd = 0%nat /\ K i = []) as (nd & En & Rn & Fc & Ki).
    { destruct (lookup_lt_is_Some_2 (lns st) i) as [nd En]; [rewrite <- (v_len _ _ _ _ _ I); by eapply lookup_lt_Some|]. exists nd.
      destruct (is_ref nd) eqn:Rn; [destruct Nd; right; eauto|]. pose proof (fo_kids _ _ (v_for _ _ _ _ _ I) _ _ En) as L. rewrite Rn in L.
      destruct (K i) eqn:Ki; [|destruct Nd; left; by rewrite Ki]. done. }
    rewrite (rd_lu _ _ _ En) in H. cbn [mbind option_bind] in H. rewrite Fc in H. cbn [resize_loop Nat.eqb] in H. cbn [mbind option_bind] in H.
    change (Z.to_nat 1) with 1%nat in H. cbn [elems_loop] in H. change (0 <? 1) with true in H. cbv iota in H. rewrite Wp in H.
    cbn [mbind option_bind] in H. apply bind_Some in H as ([r st1] & H & E). injection E as <- <-.
    apply bind_Some in H as ([m st2] & Hr & H).
    assert (unit_size W (f_type k) (f_tdp k) = Some (f_size k)) as Uk by (rewrite Ek, <- Sk; cbn; by rewrite Th, Ax).
    pose proof (unit_size_bound _ _ _ Uk) as Bk.
    assert (target_type (f_aux (D i)) /\ (f_aux (D i) = T_POINTER -> target_type (f_base h))) as [Tt Tb].
    { destruct Fo as (_ & _ & Fo). rewrite <- Td, Tx in Fo. cbn in Fo. destruct Fo as (_ & _ & Fo). destruct (Fo eq_refl) as (_ & _ & ? & ?). by rewrite Bh, Th. }
    assert (fd_ok W k) as Fk.
    { split; [done|]. split; [by rewrite Ek|]. assert ((f_type k =? T_ARRAY) = false) as ->. { rewrite Ek. cbn. rewrite Ax. apply Z.eqb_neq. apply Tt. }
      split; [done|]. split; [intros _; exists (f_size k); split; [done|lia]|]. intros Tk. rewrite Ek in Tk |- *. cbn in *. rewrite Ax in Tk.
      split; [done|]. split; [done|]. split; [auto|]. intros _. rewrite <- Bh. auto. }
    rewrite Z.mul_0_l, Z.add_0_r, Z.sub_0_r in Hr.
    destruct (save_inner_ok W HW depth p k 1 st i m st2 K D []) as [->|[-> (K' & D' & I' & X' & Cs)]]; [|done|..].
    { split; [done|]. split; [done|]. split; [eauto|]. exists x. split; [done|]. split; [by intros o ?%elem_of_nil|]. split; [by right|].
      split; [by left|]. split; [done|]. split; [intros _; right; split; [done|]; rewrite Ek; cbn; congruence|]. split; [done|].
      split; [rewrite Z.mul_1_r; apply Bk|]. intros _. split; [done|]. split; [done|]. split; [done|]. rewrite Tx. cbn. split; [rewrite Ek; done|]. split; [done|].
      intros _. split; [unfold content; rewrite Us, Ek, Ax, Th, Bh, Th, Sk; done|]. split; [by rewrite <- Sk|]. split; [done|]. rewrite Ek. done. }
    { injection H as <- <-. by left. }
    cbn in H. injection H as <- <-. right. exists K', D'.
    assert (done_at st2 K' i) as Hd.
    { destruct Cs as [(c & Ec & _)|(_ & _ & Hn & _)]; [left; by rewrite Ec, Ki|by right]. }
    destruct (l_root _ _ _ _ _ _ F) as (D1 & x1 & E1 & A1).
    assert (parf (lns st2) 1 = 0%nat /\ D' 1%nat = D 1%nat) as [P1 Dd].
    { destruct (e_stay _ _ _ _ _ _ _ X' 1%nat x1 ltac:(done) E1) as [[Q1 Q2]|((px & Np & _) & _)].
      - rewrite Q1, Q2. split; [apply (l_par _ _ _ _ _ _ F)|done].
      - destruct Np. apply (l_par _ _ _ _ _ _ F). }
    constructor; try done.
    - split; [congruence|]. destruct (e_info _ _ _ _ _ _ _ X' _ _ E1) as (x1' & E1' & Q & _). exists x1'. split; [done|congruence].
    - intros j y Jz Ey Ty Lj. destruct (s_info st !! j) as [y0|] eqn:Ey0.
      + destruct (e_info _ _ _ _ _ _ _ X' _ _ Ey0) as (y' & Ey' & _ & T0 & _ & _ & _ & Q). rewrite Ey in Ey'. injection Ey' as <-.
        assert (y = y0) as -> by (apply Q; congruence). destruct (Nat.eq_dec j i) as [->|Nj].
        * rewrite Ex in Ey0. injection Ey0 as <-. split; [|done]. intros _. unfold followed. rewrite Tx, Nl, Op. apply Z.eqb_neq in Nv, Nn. by rewrite Nv, Nn.
        * rewrite <- (l_before _ _ _ _ _ _ F j y0 Jz Ey0 ltac:(congruence) ltac:(lia)). split.
          -- eapply (e_undone _ _ _ _ _ _ _ X'); [done|exact Ey0|congruence|done].
          -- apply (e_done _ _ _ _ _ _ _ X'); [done|]. by eapply lookup_lt_Some.
      + apply lookup_ge_None in Ey0. apply lookup_lt_Some in Ex. lia.
    - intros j y Ey Ty Lj Hj. destruct (s_info st !! j) as [y0|] eqn:Ey0.
      + destruct (e_info _ _ _ _ _ _ _ X' _ _ Ey0) as (y' & Ey' & _ & T0 & _). rewrite Ey in Ey'. injection Ey' as <-.
        apply (l_after _ _ _ _ _ _ F j y0 Ey0 ltac:(congruence) ltac:(lia)).
        eapply (e_undone _ _ _ _ _ _ _ X'); [lia|exact Ey0|congruence|lia|done].
      + apply lookup_ge_None in Ey0. by eapply (e_new _ _ _ _ _ _ _ X' j y).
  Qed.

  Lemma follow_ok data g depth : forall fuel st K D i st', FI data g st K D i -> i <> 0%nat -> follow_loop W fuel depth st i = Some (true, st') ->
    exists K' D', FI data g st' K' D' (length (s_info st')).
  Proof.
    induction fuel as [|fuel IH]; intros st K D i st' F Iz H; [done|]. cbn [follow_loop] in H. destruct (Nat.ltb_spec i (length (s_info st))) as [Li|Li].
    - apply bind_Some in H as (x & Ex & H). unfold rd in Ex. destruct (followed x) eqn:Fx.
      + apply bind_Some in H as ([n st1] & Hc & H). destruct (Z.eqb_spec n 0) as [|Nz]; [done|].
        destruct (follow_step _ _ _ _ _ _ _ _ _ _ F Iz Ex Fx Hc) as [?|(K' & D' & F')]; [done|]. by eapply IH in F'.
      + eapply (IH st K D (S i)); [|done|exact H]. destruct F as [F1 F2 F3 F4 F5]. constructor; try done.
        * intros j y Jz Ey Ty Lj. destruct (Nat.eq_dec j i) as [->|Nj]; [|apply F4; done || lia]. rewrite Ex in Ey. injection Ey as <-. rewrite Fx. split; [|done].
          intros Hd. by destruct (F5 i x Ex Ty (Nat.le_refl _)).
        * intros j y Ey Ty Lj. apply (F5 j y); done || lia.
    - injection H as <-. exists K, D. destruct F as [F1 F2 F3 F4 F5]. constructor; try done.
      + intros j y Jz Ey Ty Lj. apply F4; done || lia.
      + intros j y Ey Ty Lj. apply lookup_lt_Some in Ey. lia.
  Qed.

  Lemma start_ok data f st K D : Inv W st K D [] -> Ext 0 save_init (fun _ => []) (fun _ => root_fd f) st K D -> kid_at st D data (root_fd f) 1 ->
    FI data (root_fd f) st K D 1.
  Proof.
    intros I X Hk. constructor; try done.
    - destruct Hk as (_ & x & Ex & _). destruct (Nat.eq_dec (parf (lns st) 1) 0%nat) as [?|Np]; [done|]. exfalso.
      pose proof (v_for _ _ _ _ _ I) as R. assert (1 < length (lns st))%nat as L1 by (rewrite <- (v_len _ _ _ _ _ I); by eapply lookup_lt_Some).
      destruct (fo_lev _ _ R 1%nat ltac:(done) L1) as [k Lv].
      assert (forall j k, lev (parf (lns st)) j k -> j <> 0%nat -> (j < length (lns st))%nat -> anc (parf (lns st)) j 1%nat) as Up.
      { intros j k' Lj. induction Lj as [j E|j k' N Lj IH]; intros Jz Jl.
        - destruct (lookup_lt_is_Some_2 (lns st) j Jl) as [nj Ej]. rewrite (parf_lu _ _ _ Ej) in E. destruct (fo_root _ _ R j nj Jz Ej E) as [-> _]. constructor.
        - apply anc_up; [done|]. apply IH; [done|]. apply (parf_lt _ _ R). }
      assert (anc (parf (lns st)) (parf (lns st) 1%nat) 1%nat) as A.
      { inversion Lv as [|? k1 ? L2]; subst; [done|]. eapply Up; [exact L2|done|]. apply (parf_lt _ _ R). }
      inversion Lv as [|? k1 ? L2]; subst; [done|]. destruct (anc_lev _ _ _ A _ L2) as (k' & L3 & ? & _). pose proof (lev_fun _ _ _ Lv _ L3). lia.
    - intros j x Jz. lia.
    - intros j x Ex Tx Lj. by apply (e_new _ _ _ _ _ _ _ X j x).
  Qed.

  Theorem collected data f fuel depth n st st' : wf_root W f -> save_inner W depth data (root_fd f) 1 save_init 0%nat = Some (n, st) -> n <> 0 ->
    follow_loop W fuel depth st 1%nat = Some (true, st') -> exists K D, FI data (root_fd f) st' K D (length (s_info st')).
  Proof.
    intros Hf Hs Hn Hl. destruct (root_ok _ _ _ _ _ Hf Hs) as [?|[-> (K & D & I & X & Hk)]]; [done|].
    eapply (follow_ok data (root_fd f) depth fuel st K D 1%nat); [by apply start_ok|done|done].
  Qed.
End Top.
