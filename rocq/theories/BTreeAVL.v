(** Proof layer: AVL rebalancing.  [x] is the flag [balanced], [y] is [longer]. *)
From stdpp Require Import sets.
From Verif Require Import Base BTree BTreeRep BTreeRB.

Fixpoint avl (t : bt) (h : nat) : Prop :=
  match t with
  | Leaf => h = 0
  | Node _ _ x y l r =>
    match h with
    | 0 => False
    | S h1 =>
      if x then avl l h1 /\ avl r h1
      else match h1 with
           | 0 => False
           | S h2 => if y then avl l h2 /\ avl r h1 else avl l h1 /\ avl r h2
           end
    end
  end.
Fixpoint avlctx (fs : list frame) (h : nat) : Prop :=
  match fs with
  | [] => True
  | f :: fs =>
    if fx f then avl (fsib f) h /\ avlctx fs (S h)
    else if Bool.eqb (fd f) (fy f) then
      match h with 0 => False | S h0 => avl (fsib f) h0 end /\ avlctx fs (S h)
    else avl (fsib f) (S h) /\ avlctx fs (S (S h))
  end.
Definition avlInv (t : bt) : Prop := exists h, avl t h.

Lemma avl_ND d i k x y a b h :
  avl (ND d i k x y a b) h <->
  match h with
  | 0 => False
  | S h1 =>
    if x then avl a h1 /\ avl b h1
    else match h1 with
         | 0 => False
         | S h2 => if Bool.eqb d y then avl a h1 /\ avl b h2 else avl a h2 /\ avl b h1
         end
  end.
Proof. destruct h as [|h1]; [by destruct d|]. destruct d, x, y, h1; cbn; naive_solver. Qed.

Lemma avl_plug fs t h : avlctx fs h -> avl t h -> avlInv (plug t fs).
Proof.
  revert t h. induction fs as [|f fs IH]; intros t h Hc Ht; cbn [plug]; [by exists h|].
  cbn [avlctx] in Hc. unfold plug1.
  destruct (fx f) eqn:Ex.
  - eapply IH; [apply Hc|]. apply avl_ND. naive_solver.
  - destruct (Bool.eqb (fd f) (fy f)) eqn:Ey.
    + destruct h as [|h]; [by destruct Hc|]. eapply IH; [apply Hc|]. apply avl_ND. rewrite Ey. naive_solver.
    + eapply IH; [apply Hc|]. apply avl_ND. rewrite Ey. naive_solver.
Qed.
Lemma avl_unplug fs t : avlInv (plug t fs) -> exists h, avlctx fs h /\ avl t h.
Proof.
  revert t. induction fs as [|f fs IH]; intros t; cbn [plug].
  - intros [h H]. by exists h.
  - intros H. destruct (IH _ H) as (h & Hc & Ht). unfold plug1 in Ht. rewrite avl_ND in Ht.
    destruct h as [|h1]; [done|]. cbn [avlctx]. destruct (fx f); [exists h1; naive_solver|].
    destruct h1 as [|h2]; [done|]. destruct (Bool.eqb (fd f) (fy f)).
    + exists (S h2). naive_solver.
    + exists h2. naive_solver.
Qed.

Lemma avl_erase t t' h : erase t = erase t' -> avl t h -> avl t' h.
Proof.
  revert t' h. induction t as [|i k x y l IHl r IHr]; intros [|i' k' x' y' l' r'] h E; try done.
  cbn in E. inversion E as [[E1 E2 E3 E4]]. subst x' y'. cbn. destruct h as [|[|h]], x, y; naive_solver.
Qed.
Lemma avlInv_erase t t' : erase t = erase t' -> avlInv t -> avlInv t'.
Proof. intros E [h H]. exists h. by eapply avl_erase. Qed.

Lemma zr_b0 p d i k x y a b fs c :
  zr p (ND d i k x y a b) fs ->
  exists p', upd p i (set_b0 c) = Some p' /\ length p' = length p /\ zr p' (ND d i k c y a b) fs.
Proof.
  intros H. destruct (zr_set p d i k x y a b fs (set_b0 c) k c y H) as (p' & E & El & Hz & _).
  - by destruct d.
  - eauto.
Qed.
Lemma zr_flip p d i k x y a b fs :
  zr p (ND d i k x y a b) fs ->
  exists p', upd p i (fun n => set_b1 (negb (b1 n)) n) = Some p' /\ length p' = length p /\
    zr p' (ND d i k x (negb y) a b) fs.
Proof.
  intros H. destruct (zr_set p d i k x y a b fs (fun n => set_b1 (negb (b1 n)) n) k x (negb y) H)
    as (p' & E & El & Hz & _).
  - by destruct d.
  - eauto.
Qed.


Definition ubal (t : bt) : Prop := match t with Leaf => False | Node _ _ x _ _ _ => x = false end.
Lemma ubal_ND d i k x y a b : ubal (ND d i k x y a b) <-> x = false.
Proof. by destruct d. Qed.

(** The three cases before a double rotation; [d] is the longer side. *)
Lemma avl_grand_ok p path fs d pi pk ci ck a gi gk gx gy gd gn sib h :
  zr p (ND d pi pk false d (ND d ci ck false (negb d) a (ND d gi gk gx gy gd gn)) sib) (fs ++ [S0]) ->
  avl a h -> avl (ND d gi gk gx gy gd gn) (S h) -> avl sib h ->
  path_ok path (fs ++ [S0]) -> path_idx path (S (length fs)) = Some pi ->
  exists p' t',
    (p ← (if gx then
            p ← upd p pi (set_b0 true);
            upd p ci (set_b0 true)
          else if Bool.eqb (negb d) gy then
            p ← upd p pi (set_b0 true);
            p ← upd p ci (fun c => set_b1 (negb (b1 c)) c);
            upd p gi (set_b0 true)
          else
            p ← upd p pi (fun n => set_b1 (negb (b1 n)) n);
            p ← upd p ci (set_b0 true);
            upd p gi (set_b0 true));
     grand_rotate p path (S (length fs)) d) = Some p' /\ length p' = length p /\
    zr p' t' (fs ++ [S0]) /\
    same (ND d pi pk false d (ND d ci ck false (negb d) a (ND d gi gk gx gy gd gn)) sib) t' /\
    avl t' (S (S h)).
Proof.
  intros Hz Ha Hg Hs Hp Hpi. destruct (first_frame _ _ Hp) as (F & FS & EF & Hpf). rewrite EF in Hz.
  rewrite avl_ND in Hg. destruct gx.
  - destruct (zr_b0 _ _ _ _ _ _ _ _ _ true Hz) as (p1 & E1 & L1 & Hz1). rewrite E1. bind.
    apply zr_dn in Hz1.
    destruct (zr_b0 _ _ _ _ _ _ _ _ _ true Hz1) as (p2 & E2 & L2 & Hz2). rewrite E2. bind.
    apply zr_up in Hz2.
    destruct (grand_rotate_ok _ path (length fs) _ _ _ _ _ _ _ _ _ _ _ _ _ _ _ _ _ _ _ Hz2 Hpi Hpf)
      as (p3 & E3 & L3 & Hz3).
    eexists p3, _. split; [exact E3|]. split; [congruence|]. rewrite EF. split; [exact Hz3|].
    split; [destruct d; same_solve|]. rewrite !avl_ND. naive_solver.
  - destruct h as [|h0]; [done|]. destruct (Bool.eqb (negb d) gy) eqn:Eg.
    + destruct (zr_b0 _ _ _ _ _ _ _ _ _ true Hz) as (p1 & E1 & L1 & Hz1). rewrite E1. bind.
      apply zr_dn in Hz1.
      destruct (zr_flip _ _ _ _ _ _ _ _ _ Hz1) as (p2 & E2 & L2 & Hz2). rewrite E2. bind.
      rewrite <- (ND_neg d ci) in Hz2. apply zr_dn in Hz2.
      destruct (zr_b0 _ _ _ _ _ _ _ _ _ true Hz2) as (p3 & E3 & L3 & Hz3). rewrite E3. bind.
      apply zr_up in Hz3. rewrite ND_neg in Hz3. apply zr_up in Hz3.
      destruct (grand_rotate_ok _ path (length fs) _ _ _ _ _ _ _ _ _ _ _ _ _ _ _ _ _ _ _ Hz3 Hpi Hpf)
        as (p4 & E4 & L4 & Hz4).
      eexists p4, _. split; [exact E4|]. split; [congruence|]. rewrite EF. split; [exact Hz4|].
      split; [destruct d; same_solve|]. rewrite !avl_ND. destruct d, gy; try done; cbn in *; naive_solver.
    + destruct (zr_flip _ _ _ _ _ _ _ _ _ Hz) as (p1 & E1 & L1 & Hz1). rewrite E1. bind.
      apply zr_dn in Hz1.
      destruct (zr_b0 _ _ _ _ _ _ _ _ _ true Hz1) as (p2 & E2 & L2 & Hz2). rewrite E2. bind.
      rewrite <- (ND_neg d ci) in Hz2. apply zr_dn in Hz2.
      destruct (zr_b0 _ _ _ _ _ _ _ _ _ true Hz2) as (p3 & E3 & L3 & Hz3). rewrite E3. bind.
      apply zr_up in Hz3. rewrite ND_neg in Hz3. apply zr_up in Hz3.
      destruct (grand_rotate_ok _ path (length fs) _ _ _ _ _ _ _ _ _ _ _ _ _ _ _ _ _ _ _ Hz3 Hpi Hpf)
        as (p4 & E4 & L4 & Hz4).
      eexists p4, _. split; [exact E4|]. split; [congruence|]. rewrite EF. split; [exact Hz4|].
      split; [destruct d; same_solve|]. rewrite !avl_ND. destruct d, gy; try done; cbn in *; naive_solver.
Qed.

Lemma avl_add_loop_ok fs : forall p t h path,
  zr p t (fs ++ [S0]) -> avl t (S h) -> (ubal t \/ h = 0) -> avlctx fs h ->
  path_ok path (fs ++ [S0]) ->
  exists p' t', avl_add_loop (length fs) p path = Some p' /\ length p' = length p /\
    whole p' t' /\ same (plug t fs) t' /\ avlInv t'.
Proof.
  induction fs as [|f fs IH]; intros p t h path Hz Ht Hu Hc Hp.
  - exists p, t. split_and!; try done. by exists (S h).
  - cbn [avl_add_loop length]. cbn [app path_ok] in Hp. destruct Hp as [Hpf Hp].
    rewrite app_length in Hpf. cbn [length] in Hpf. replace (length fs + 1) with (S (length fs)) in Hpf by lia.
    rewrite (path_idx_Some _ _ _ Hpf), (path_dir_Some _ _ _ Hpf). bind. cbn [fst snd].
    cbn [app] in Hz. pose proof (zr_read_fr _ _ _ _ Hz) as R.
    rewrite (rd_lu _ _ _ R). bind. rewrite b0_fcell, b1_fcell.
    destruct f as [pi pk px y d sib]. cbn [fid fk fx fy fd fsib] in *.
    cbn [avlctx fx fy fd fsib] in Hc. apply zr_up in Hz.
    destruct px.
    + destruct (zr_b0 _ _ _ _ _ _ _ _ _ false Hz) as (p1 & E1 & L1 & Hz1). rewrite E1. bind.
      destruct (zr_paint _ _ _ _ _ _ _ _ _ d Hz1) as (p2 & E2 & L2 & Hz2). rewrite E2. bind.
      destruct (IH p2 _ (S h) path Hz2) as (p' & t' & E & L & Hw & Hs & Hi).
      * apply avl_ND. rewrite eqb_reflx. naive_solver.
      * left. by apply ubal_ND.
      * naive_solver.
      * done.
      * exists p', t'. split; [done|]. split; [congruence|]. split; [done|]. split; [|done].
        eapply same_trans; [|exact Hs]. cbn [plug]. apply same_plug. unfold plug1.
        cbn [fid fk fx fy fd fsib]. destruct d; same_solve.
    + destruct (Bool.eqb y d) eqn:Ey; cbn [negb].
      * apply eqb_prop in Ey. subst y. rewrite eqb_reflx in Hc.
        destruct h as [|h0]; [by destruct Hc|]. destruct Hc as [Hsib Hc].
        destruct Hu as [Hu|]; [|done]. destruct t as [|ti tk tx ty tl tr]; [done|]. cbn in Hu. subst tx.
        assert (Ec : next (fcell (Fr pi pk false d d sib) ti) d = ti) by (by destruct d).
        rewrite (get_next_Some _ _ _ _ R). bind. cbn [rid]. rewrite Ec.
        pose proof (zr_dn _ _ _ _ _ _ _ _ _ Hz) as Hz'.
        pose proof (zr_read _ _ _ _ _ _ _ _ Hz') as Rt. rewrite (rd_lu _ _ _ Rt). bind. cbn [b1].
        rewrite (Node_ND d) in Hz, Ht |- *.
        set (a := if d then tr else tl) in *. set (b := if d then tl else tr) in *.
        rewrite avl_ND in Ht. destruct (Bool.eqb d ty) eqn:Ety.
        -- destruct Ht as [Hta Htb].
           destruct (zr_b0 _ _ _ _ _ _ _ _ _ true Hz) as (p1 & E1 & L1 & Hz1). rewrite E1. bind.
           apply zr_dn in Hz1.
           destruct (zr_b0 _ _ _ _ _ _ _ _ _ true Hz1) as (p2 & E2 & L2 & Hz2). rewrite E2. bind.
           apply zr_up in Hz2. destruct (first_frame _ _ Hp) as (F & FS & EF & Hpf1). rewrite EF in Hz2.
           destruct (rotate_ok _ path (length fs) _ _ _ _ _ _ _ _ _ _ _ _ _ _ Hz2) as (p3 & E3 & L3 & Hz3).
           { by rewrite (path_idx_Some _ _ _ Hpf). }
           { done. }
           rewrite <- EF in Hz3. rewrite zr_plug in Hz3.
           eexists p3, _. split; [exact E3|]. split; [congruence|]. split; [exact Hz3|].
           split. { cbn [plug]. apply same_plug. unfold plug1. cbn [fid fk fx fy fd fsib]. destruct d; same_solve. }
           eapply avl_plug; [exact Hc|]. rewrite !avl_ND. naive_solver.
        -- assert (ty = negb d) as -> by (destruct d, ty; naive_solver).
           destruct Ht as [Hta Htb].
           rewrite (get_next_Some _ _ _ _ Rt). bind.
           assert (Eg : next (Nd tk (rid tl) (rid tr) false (negb d)) (negb d) = rid b) by (unfold b; by destruct d).
           rewrite Eg. assert (Eb : (if d then tl else tr) = b) by done.
           clearbody b a. destruct b as [|gi gk gx gy gl gr]; [done|]. cbn [rid].
           rewrite (Node_ND d gi) in Hz, Htb.
           pose proof Hz as Hz2. apply zr_dn in Hz2. rewrite <- (ND_neg d ti) in Hz2. apply zr_dn in Hz2.
           pose proof (zr_read_ND _ _ _ _ _ _ _ _ _ Hz2) as Rg.
           rewrite (rd_lu _ _ _ Rg). bind. rewrite b0_fcell, b1_fcell. cbn [fx fy].
           destruct (avl_grand_ok p path fs _ _ _ _ _ _ _ _ _ _ _ _ _ h0 Hz) as (p' & t' & E & L & Hz3 & Hs & Hi); try done.
           { by rewrite (path_idx_Some _ _ _ Hpf). }
           apply zr_plug in Hz3.
           exists p', (plug t' fs). split; [exact E|]. split; [done|]. split; [exact Hz3|]. split.
           { cbn [plug]. apply same_plug. eapply same_trans; [|exact Hs]. unfold plug1.
             cbn [fid fk fx fy fd fsib]. rewrite (Node_ND d gi). done. }
           by eapply avl_plug.
      * destruct (zr_b0 _ _ _ _ _ _ _ _ _ true Hz) as (p1 & E1 & L1 & Hz1). rewrite E1.
        assert (Ey' : Bool.eqb d y = false) by (by destruct d, y). rewrite Ey' in Hc.
        apply zr_plug in Hz1.
        eexists p1, _. split; [done|]. split; [done|]. split; [exact Hz1|].
        split. { cbn [plug]. apply same_plug. unfold plug1. cbn [fid fk fx fy fd fsib]. destruct d; same_solve. }
        eapply avl_plug; [apply Hc|]. rewrite avl_ND. naive_solver.
Qed.

Lemma avl_rebalance_add_ok fs p path i k x y :
  zr p (Node i k x y Leaf Leaf) (fs ++ [S0]) -> avlInv (plug Leaf fs) ->
  path_ok path (fs ++ [S0]) -> path_idx path (length fs + 1) = Some i ->
  exists p' t', avl_rebalance_add p path (length fs + 1) = Some p' /\ length p' = length p /\
    whole p' t' /\ same (plug (Node i k x y Leaf Leaf) fs) t' /\ avlInv t'.
Proof.
  intros Hz Hi Hp Hpi. unfold avl_rebalance_add. rewrite Hpi. bind.
  destruct (avl_unplug _ _ Hi) as (h & Hc & Hh). cbn in Hh. subst h.
  rewrite (Node_ND false) in Hz.
  destruct (zr_b0 _ _ _ _ _ _ _ _ _ true Hz) as (p1 & E1 & L1 & Hz1). rewrite E1. bind.
  replace (length fs + 1 - 1) with (length fs) by lia.
  destruct (avl_add_loop_ok fs p1 _ 0 path Hz1) as (p' & t' & E & L & Hw & Hs & Hi'); [done|by right|done|done|].
  exists p', t'. split; [done|]. split; [congruence|]. split; [done|]. split; [|done].
  eapply same_trans; [|exact Hs]. by apply same_plug.
Qed.

Lemma avl_del_loop_ok fs : forall p t h path,
  zr p t (fs ++ [S0]) -> avl t h -> avlctx fs (S h) ->
  path_ok path (fs ++ [S0]) ->
  exists p' t', avl_del_loop (length fs) p path = Some p' /\ length p' = length p /\
    whole p' t' /\ same (plug t fs) t' /\ avlInv t'.
Proof.
  induction fs as [|f fs IH]; intros p t h path Hz Ht Hc Hp.
  - exists p, t. split_and!; try done. by exists h.
  - cbn [avl_del_loop length]. cbn [app path_ok] in Hp. destruct Hp as [Hpf Hp].
    rewrite app_length in Hpf. cbn [length] in Hpf. replace (length fs + 1) with (S (length fs)) in Hpf by lia.
    rewrite (path_idx_Some _ _ _ Hpf), (path_dir_Some _ _ _ Hpf). bind. cbn [fst snd].
    cbn [app] in Hz. pose proof (zr_read_fr _ _ _ _ Hz) as R.
    rewrite (rd_lu _ _ _ R). bind. rewrite b0_fcell, b1_fcell.
    destruct f as [pi pk px y d sib]. cbn [fid fk fx fy fd fsib] in *.
    cbn [avlctx fx fy fd fsib] in Hc. apply zr_up in Hz.
    destruct px.
    + destruct (zr_b0 _ _ _ _ _ _ _ _ _ false Hz) as (p1 & E1 & L1 & Hz1). rewrite E1. bind.
      destruct (zr_paint _ _ _ _ _ _ _ _ _ (negb d) Hz1) as (p2 & E2 & L2 & Hz2). rewrite E2.
      apply zr_plug in Hz2.
      eexists p2, _. split; [done|]. split; [congruence|]. split; [exact Hz2|].
      split. { cbn [plug]. apply same_plug. unfold plug1. cbn [fid fk fx fy fd fsib]. destruct d; same_solve. }
      eapply avl_plug; [apply Hc|]. rewrite avl_ND. destruct d; naive_solver.
    + destruct (Bool.eqb y d) eqn:Ey.
      * apply eqb_prop in Ey. subst y. rewrite eqb_reflx in Hc. destruct Hc as [Hsib Hc].
        destruct (zr_b0 _ _ _ _ _ _ _ _ _ true Hz) as (p1 & E1 & L1 & Hz1). rewrite E1. bind.
        destruct (IH p1 _ (S h) path Hz1) as (p' & t' & E & L & Hw & Hs & Hi).
        { rewrite avl_ND. done. } { done. } { done. }
        exists p', t'. split; [done|]. split; [congruence|]. split; [done|]. split; [|done].
        eapply same_trans; [|exact Hs]. cbn [plug]. apply same_plug. unfold plug1.
        cbn [fid fk fx fy fd fsib]. destruct d; same_solve.
      * assert (y = negb d) as -> by (destruct d, y; naive_solver).
        assert (Ed : Bool.eqb d (negb d) = false) by (by destruct d). rewrite Ed in Hc.
        destruct Hc as [Hsib Hc].
        destruct sib as [|ci ck cx cy cl0 cr0]; [done|].
        rewrite (get_next_Some _ _ _ _ R). bind.
        assert (Ec : next (fcell (Fr pi pk false (negb d) d (Node ci ck cx cy cl0 cr0)) (rid t)) (negb d) = ci)
          by (by destruct d).
        rewrite Ec. rewrite <- ND_neg in Hz. pose proof (zr_dn _ _ _ _ _ _ _ _ _ Hz) as Hz'.
        pose proof (zr_read _ _ _ _ _ _ _ _ Hz') as Rt. rewrite (rd_lu _ _ _ Rt). bind. cbn [b0 b1].
        rewrite (Node_ND (negb d)) in Hz, Hsib |- *.
        set (a := if negb d then cr0 else cl0) in *. set (b := if negb d then cl0 else cr0) in *.
        rewrite avl_ND in Hsib. destruct cx.
        -- apply zr_dn in Hz.
           destruct (zr_b0 _ _ _ _ _ _ _ _ _ false Hz) as (p1 & E1 & L1 & Hz1). rewrite E1. bind.
           destruct (zr_paint _ _ _ _ _ _ _ _ _ d Hz1) as (p2 & E2 & L2 & Hz2). rewrite E2. bind.
           apply zr_up in Hz2. destruct (first_frame _ _ Hp) as (F & FS & EF & Hpf1). rewrite EF in Hz2.
           destruct (rotate_ok _ path (length fs) _ _ _ _ _ _ _ _ _ _ _ _ _ _ Hz2) as (p3 & E3 & L3 & Hz3).
           { by rewrite (path_idx_Some _ _ _ Hpf). }
           { done. }
           rewrite <- EF in Hz3. rewrite zr_plug in Hz3.
           eexists p3, _. split; [exact E3|]. split; [congruence|]. split; [exact Hz3|].
           split. { cbn [plug]. apply same_plug. unfold plug1. cbn [fid fk fx fy fd fsib]. destruct d; same_solve. }
           eapply avl_plug; [exact Hc|]. rewrite !avl_ND. destruct d; cbn in *; naive_solver.
        -- destruct (Bool.eqb (negb d) cy) eqn:Ecy.
           ++ destruct (zr_b0 _ _ _ _ _ _ _ _ _ true Hz) as (p1 & E1 & L1 & Hz1). rewrite E1. bind.
              apply zr_dn in Hz1.
              destruct (zr_b0 _ _ _ _ _ _ _ _ _ true Hz1) as (p2 & E2 & L2 & Hz2). rewrite E2. bind.
              apply zr_up in Hz2. destruct (first_frame _ _ Hp) as (F & FS & EF & Hpf1). rewrite EF in Hz2.
              destruct (rotate_ok _ path (length fs) _ _ _ _ _ _ _ _ _ _ _ _ _ _ Hz2) as (p3 & E3 & L3 & Hz3).
              { by rewrite (path_idx_Some _ _ _ Hpf). }
              { done. }
              rewrite E3. bind. rewrite <- EF in Hz3.
              destruct (IH p3 _ (S (S h)) path Hz3) as (p' & t' & E & L & Hw & Hs & Hi).
              { rewrite !avl_ND. naive_solver. } { done. } { done. }
              exists p', t'. split; [done|]. split; [congruence|]. split; [done|]. split; [|done].
              eapply same_trans; [|exact Hs]. cbn [plug]. apply same_plug. unfold plug1.
              cbn [fid fk fx fy fd fsib]. destruct d; same_solve.
           ++ assert (cy = negb (negb d)) as -> by (destruct d, cy; naive_solver).
              destruct Hsib as [Hta Htb].
              rewrite (get_next_Some _ _ _ _ Rt). bind.
              assert (Eg : next (Nd ck (rid cl0) (rid cr0) false (negb (negb d))) d = rid b)
                by (unfold b; by destruct d).
              rewrite Eg. clearbody b a. destruct b as [|gi gk gx gy gl gr]; [done|]. cbn [rid].
              rewrite (Node_ND (negb d) gi) in Hz, Htb.
              pose proof Hz as Hz2. apply zr_dn in Hz2. rewrite <- (ND_neg (negb d) ci) in Hz2. apply zr_dn in Hz2.
              pose proof (zr_read_ND _ _ _ _ _ _ _ _ _ Hz2) as Rg.
              rewrite (rd_lu _ _ _ Rg). bind. rewrite b0_fcell, b1_fcell. cbn [fx fy].
              destruct (avl_grand_ok p path fs _ _ _ _ _ _ _ _ _ _ _ _ _ h Hz) as (p1 & t1 & E1 & L1 & Hz3 & Hs1 & Hi1); try done.
              { by rewrite (path_idx_Some _ _ _ Hpf). }
              match type of E1 with (?X ≫= _) = _ => destruct X as [p2|] eqn:E2; [|done] end.
              bind. cbn [mbind option_bind] in E1. rewrite E1. bind.
              destruct (IH p1 _ (S (S h)) path Hz3) as (p' & t' & E & L & Hw & Hs & Hi); try done.
              exists p', t'. split; [done|]. split; [congruence|]. split; [done|]. split; [|done].
              eapply same_trans; [|exact Hs]. cbn [plug]. apply same_plug. eapply same_trans; [|exact Hs1].
              unfold plug1. cbn [fid fk fx fy fd fsib]. rewrite (Node_ND (negb d) gi). destruct d; same_solve.
Qed.

Lemma avl_rebalance_del_ok fs p path di dk dx dy l r t :
  zr p t (fs ++ [S0]) -> (l = Leaf /\ t = r \/ r = Leaf /\ t = l) ->
  avlInv (plug (Node di dk dx dy l r) fs) ->
  path_ok path (fs ++ [S0]) ->
  exists p' t', avl_rebalance_del p path (length fs + 1) = Some p' /\ length p' = length p /\
    whole p' t' /\ same (plug t fs) t' /\ avlInv t'.
Proof.
  intros Hz Hlr Hi Hp. unfold avl_rebalance_del. replace (length fs + 1 - 1) with (length fs) by lia.
  destruct (avl_unplug _ _ Hi) as (h & Hc & Hh). cbn in Hh. destruct h as [|h]; [done|].
  apply (avl_del_loop_ok fs p t h path); try done.
  destruct Hlr as [[-> ->]|[-> ->]]; destruct dx; cbn in Hh; try naive_solver.
  - destruct h as [|h]; [done|]. destruct dy; naive_solver.
  - destruct h as [|h]; [done|]. destruct dy; naive_solver.
Qed.

(** *** Height *)
Fixpoint mc (h : nat) : Z :=
  match h with 0 => 2 | S h => match h with 0 => 3 | S h1 => 2 * mc h1 end end.
Lemma mc_pos h : (2 <= mc h /\ mc h < mc (S h))%Z.
Proof.
  induction h as [|h IH]; [cbn; lia|].
  destruct h as [|h]; [cbn; lia|]. change (mc (S (S (S h)))) with (2 * mc (S h))%Z.
  change (mc (S (S h))) with (2 * mc h)%Z in *.
  enough (mc h < mc (S h))%Z by lia.
  clear IH. induction h as [h IH] using (well_founded_induction lt_wf).
  destruct h as [|[|h]]; [cbn; lia|cbn; lia|].
  change (mc (S (S (S h)))) with (2 * mc (S h))%Z. change (mc (S (S h))) with (2 * mc h)%Z.
  pose proof (IH h ltac:(lia)). lia.
Qed.
Lemma mc_mono a b : a <= b -> (mc a <= mc b)%Z.
Proof. induction 1 as [|b H IH]; [lia|]. pose proof (mc_pos b). lia. Qed.

Lemma avl_height t h : avl t h -> ht t = h /\ (mc h <= Z.of_nat (sz t) + 2)%Z.
Proof.
  revert h. induction t as [|i k x y l IHl r IHr]; intros h; cbn [avl ht sz].
  - intros ->. cbn. lia.
  - destruct h as [|h1]; [done|]. destruct x.
    + intros [Hl Hr]. destruct (IHl _ Hl) as [A1 B1]. destruct (IHr _ Hr) as [A2 B2].
      split; [lia|]. destruct h1 as [|h2]; [cbn in *; lia|].
      change (mc (S (S h2))) with (2 * mc h2)%Z. pose proof (mc_pos h2). lia.
    + destruct h1 as [|h2]; [done|]. destruct y; intros [Hl Hr].
      * destruct (IHl _ Hl) as [A1 B1]. destruct (IHr _ Hr) as [A2 B2]. split; [lia|].
        change (mc (S (S h2))) with (2 * mc h2)%Z. pose proof (mc_pos h2). lia.
      * destruct (IHl _ Hl) as [A1 B1]. destruct (IHr _ Hr) as [A2 B2]. split; [lia|].
        change (mc (S (S h2))) with (2 * mc h2)%Z. pose proof (mc_pos h2). lia.
Qed.

Lemma avlInv_height t : avlInv t -> (Z.of_nat (sz t) < 2 ^ 31)%Z -> ht t <= 60.
Proof.
  intros [h H] Hs. apply avl_height in H as [<- H].
  destruct (decide (61 <= ht t)) as [Hh|Hh]; [|lia].
  pose proof (mc_mono _ _ Hh). change (mc 61) with (3 * 2 ^ 30)%Z in *. lia.
Qed.
