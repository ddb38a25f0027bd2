(** Proof layer: [mr_tree_next] moves a cursor over the sorted keys of the tree. *)
From Verif Require Import Base Spec FwFacts BTree BTreeRep BTreeRB BTreeAVL BTreeProof BTreeInst BTreeMore BTreeValid.

(** *** Vocabulary of the statement: a cursor in a sorted list *)

(** Keys below (nearest first), the current key if there is one, keys above
    (nearest first); [Off] when the cursor was moved past an end. *)
Inductive cursor := Off | Gap (below above : list N) | At (below : list N) (k : N) (above : list N).
Definition cur_up (c : cursor) : cursor :=
  match c with
  | Gap b (x :: a) => At b x a
  | At b k (x :: a) => At (k :: b) x a
  | _ => Off
  end.
Definition cur_down (c : cursor) : cursor :=
  match c with
  | Gap (x :: b) a => At b x a
  | At (x :: b) k a => At b x (k :: a)
  | _ => Off
  end.
Definition cur_key (c : cursor) : option N := match c with At _ k _ => Some k | _ => None end.
(** Cursor at [key] in the sorted list [s]. *)
Definition cur_find (cmp : N -> N -> Z) (s : list N) (key : N) : cursor :=
  let below := rev (List.filter (fun x => (0 <? cmp key x)%Z) s) in
  let above := List.filter (fun x => (cmp key x <? 0)%Z) s in
  match fw_find cmp s key with
  | Some k => At below k above
  | None => Gap below above
  end.

(** *** Proofs *)
Definition side (d : bool) (fs : list frame) : list N := if d then cr fs else rev (cl fs).
Definition ord (d : bool) (t : bt) : list N := if d then inorder t else rev (inorder t).

Lemma side_cons d f fs : side d (f :: fs) =
  (if Bool.eqb (fd f) d then [] else fk f :: ord d (fsib f)) ++ side d fs.
Proof.
  unfold side, ord. destruct d; cbn [cl cr].
  - by destruct (fd f).
  - rewrite rev_app_distr. destruct (fd f); cbn [Bool.eqb]; [|done]. by rewrite rev_app_distr.
Qed.
Lemma side_app d fs gs : side d (fs ++ gs) = side d fs ++ side d gs.
Proof.
  induction fs as [|f fs IH]; [by destruct d|]. cbn [app]. by rewrite !side_cons, IH, (assoc_L (++)).
Qed.
Lemma ord_ND d i k x y a b : ord d (ND d i k x y a b) = ord d b ++ k :: ord d a.
Proof. unfold ord. destruct d; cbn [ND inorder]; [done|]. rewrite rev_app_distr. cbn. by rewrite <- app_assoc. Qed.
Lemma ord_ND_neg d i k x y a b : ord (negb d) (ND d i k x y a b) = ord (negb d) a ++ k :: ord (negb d) b.
Proof. unfold ord. destruct d; cbn [ND inorder negb]; [|done]. rewrite rev_app_distr. cbn. by rewrite <- app_assoc. Qed.
Lemma ord_Leaf d : ord d Leaf = [].
Proof. by destruct d. Qed.
Lemma ord_plug d t fs : ord d (plug t fs) = rev (side (negb d) fs) ++ ord d t ++ side d fs.
Proof.
  unfold ord, side. rewrite inorder_plug. destruct d; cbn [negb].
  - by rewrite rev_involutive.
  - by rewrite !rev_app_distr, <- app_assoc.
Qed.
Lemma htplug t fs : length fs + ht t <= ht (plug t fs).
Proof.
  revert t. induction fs as [|f fs IH]; intros t; cbn [plug length]; [lia|].
  specialize (IH (plug1 t f)). unfold plug1 in *. destruct (fd f); cbn [ND ht] in *; lia.
Qed.
Lemma rep_plug p t fs : rep p (plug t fs) -> rep p t.
Proof.
  revert t. induction fs as [|f fs IH]; intros t; cbn [plug]; [done|]. intros H%IH. unfold plug1 in H.
  by apply rep_ND in H as (_ & H & _).
Qed.
Lemma in_plug t fs i : i ∈ ids t -> i ∈ ids (plug t fs).
Proof. intros H. rewrite ids_plug. apply elem_of_app. by left. Qed.

Definition dirn (d : bool) (c : cursor) : cursor := if d then cur_up c else cur_down c.
Definition At2 (d : bool) (near far : list N) (k : N) : cursor := if d then At far k near else At near k far.
Definition Gap2 (d : bool) (near far : list N) : cursor := if d then Gap far near else Gap near far.
Lemma dirn_At d near far k : dirn d (At2 d near far k) =
  match near with [] => Off | x :: near => At2 d near (k :: far) x end.
Proof. by destruct d, near. Qed.
Lemma dirn_Gap d near far : dirn d (Gap2 d near far) =
  match near with [] => Off | x :: near => At2 d near far x end.
Proof. by destruct d, near. Qed.

Lemma leaf_dec t : {t = Leaf} + {t <> Leaf}.
Proof. destruct t; [by left|by right]. Qed.

Section cur.
Context (p : list node) (T : bt).
Context (HT : rep p T) (H0 : 0 ∉ ids T) (Hh : ht T <= 62).

Definition rel (tv : path_t * nat * bool) (c : cursor) : Prop :=
  let '(path, ts, eq) := tv in
  length path = PATH /\
  match c with
  | Off => ts = 1
  | Gap b a => exists fs, T = plug Leaf fs /\ path_ok path (fs ++ [S0]) /\ ts = length fs + 1 /\ eq = false /\
      b = side false fs /\ a = side true fs
  | At b k a => exists fs i x y l r e, T = plug (Node i k x y l r) fs /\ path_ok path (fs ++ [S0]) /\
      path !! (length fs + 1) = Some (i, e) /\ ts = length fs + 2 /\ eq = true /\
      b = ord false l ++ side false fs /\ a = ord true r ++ side true fs
  end.
Lemma rel_At2 d path ts eq near far k : rel (path, ts, eq) (At2 d near far k) <->
  length path = PATH /\ exists fs i x y a b e, T = plug (ND d i k x y a b) fs /\ path_ok path (fs ++ [S0]) /\
    path !! (length fs + 1) = Some (i, e) /\ ts = length fs + 2 /\ eq = true /\
    near = ord d a ++ side d fs /\ far = ord (negb d) b ++ side (negb d) fs.
Proof.
  destruct d; cbn [At2 rel negb ND].
  - split; intros (Hl & fs & i & x & y & a & b & e & H); (split; [done|]); exists fs, i, x, y, b, a, e; naive_solver.
  - done.
Qed.
Lemma rel_Gap2 d path ts eq near far : rel (path, ts, eq) (Gap2 d near far) <->
  length path = PATH /\ exists fs, T = plug Leaf fs /\ path_ok path (fs ++ [S0]) /\ ts = length fs + 1 /\ eq = false /\
    near = side d fs /\ far = side (negb d) fs.
Proof. destruct d; cbn [Gap2 rel negb]; naive_solver. Qed.

Lemma next_pop_S ts path d : next_pop (S (S ts)) path d =
  (cd ← path_dir path (S ts); if Bool.eqb cd d then next_pop (S ts) path d else Some (S (S ts))).
Proof. done. Qed.
Lemma pop_ok path d : forall fs t, path_ok path (fs ++ [S0]) ->
  (exists f rest t', plug t fs = plug (plug1 t' f) rest /\ fd f = negb d /\
     next_pop (length fs + 1) path d = Some (length rest + 2) /\ path_ok path (rest ++ [S0]) /\
     path !! (length rest + 1) = Some (fid f, negb d) /\
     side d fs = fk f :: ord d (fsib f) ++ side d rest /\
     ord (negb d) t' ++ side (negb d) rest = ord (negb d) t ++ side (negb d) fs) \/
  (next_pop (length fs + 1) path d = Some 1 /\ side d fs = []).
Proof.
  induction fs as [|f fs IH]; intros t Hp.
  - right. split; [done|]. by destruct d.
  - cbn [app path_ok] in Hp. destruct Hp as [Hf Hp]. rewrite app_length in Hf. cbn [length] in Hf.
    cbn [length]. replace (S (length fs) + 1) with (S (S (length fs))) by lia. rewrite next_pop_S.
    replace (length fs + 1) with (S (length fs)) in Hf by lia.
    rewrite (path_dir_Some _ _ _ Hf). bind. cbn [snd].
    destruct (Bool.eqb_spec (fd f) d) as [E|E].
    + replace (S (length fs)) with (length fs + 1) by lia.
      destruct (IH (plug1 t f) Hp) as [(g & rest & t' & A1 & A2 & A3 & A4 & A5 & A6 & A7)|(A1 & A2)].
      * left. exists g, rest, t'. split_and!; try done.
        -- rewrite side_cons, E, eqb_reflx. done.
        -- rewrite A7. unfold plug1. rewrite E, ord_ND_neg, side_cons, E.
           replace (Bool.eqb d (negb d)) with false by (by destruct d). by rewrite <- app_assoc.
      * right. split; [done|]. rewrite side_cons, E, eqb_reflx. done.
    + left. assert (E' : fd f = negb d) by (by destruct d, (fd f)). exists f, fs, t. split_and!; try done.
      * replace (S (S (length fs))) with (length fs + 2) by lia. done.
      * rewrite <- E'. rewrite <- Hf. f_equal. lia.
      * rewrite side_cons. destruct (Bool.eqb_spec (fd f) d); done.
      * rewrite side_cons, E', eqb_reflx. done.
Qed.

Lemma push_ok nd : forall fuel t fs path, rep p t -> 0 ∉ ids t -> t <> Leaf -> path_ok path (fs ++ [S0]) ->
  length path = PATH -> length fs + 1 + ht t <= PATH -> ht t < fuel ->
  exists path' gs i k x y a, t = plug (ND nd i k x y Leaf a) gs /\ Forall (fun f => fd f = nd) gs /\
    next_push fuel p (rid t) nd path (length fs + 1) = Some (path', length gs + length fs + 2) /\
    path_ok path' (gs ++ fs ++ [S0]) /\ path' !! (length gs + length fs + 1) = Some (i, nd) /\ length path' = PATH.
Proof.
  induction fuel as [|fuel IH]; intros t fs path Hr Hz Hn Hp Hl Hle Hf; [lia|].
  destruct t as [|i k x y l r]; [done|]. cbn [rid next_push].
  destruct (Nat.eqb_spec i 0) as [->|Hi]; [exfalso; apply Hz, mem_m|].
  cbn [ht] in Hle, Hf. rewrite wr_Some by lia. bind.
  pose proof Hr as (Hn1 & Pl & Pr). rewrite (rd_lu _ _ _ Hn1). bind.
  apply mem_not in Hz as (Z1 & _ & Z3).
  set (path1 := <[length fs + 1 := (i, nd)]> path).
  assert (Hl1 : length path1 = PATH) by (unfold path1; by rewrite insert_length).
  assert (Hi1 : path1 !! (length fs + 1) = Some (i, nd)) by (unfold path1; apply list_lookup_insert; lia).
  assert (Hp1 : path_ok path1 (fs ++ [S0])) by (apply path_ok_ins; [rewrite app_length; cbn; lia|done]).
  set (c := if nd then r else l). set (o := if nd then l else r).
  assert (En : next (Nd k (rid l) (rid r) x y) nd = rid c) by (unfold c; by destruct nd). rewrite En.
  assert (Et : Node i k x y l r = ND nd i k x y c o) by (unfold c, o; by destruct nd).
  assert (Hc : ht c < fuel /\ length fs + 2 + ht c <= PATH) by (unfold c; destruct nd; lia).
  destruct (leaf_dec c) as [Ec|Ec].
  - exists path1, [], i, k, x, y, o. cbn [plug length app]. split; [by rewrite Et, Ec|]. split; [constructor|].
    split; [|done]. rewrite Ec. cbn [rid]. destruct fuel; [lia|]. cbn [next_push Nat.eqb].
    by replace (S (length fs + 1)) with (0 + length fs + 2) by lia.
  - destruct (IH c (Fr i k x y nd o :: fs) path1) as (path' & gs & i' & k' & x' & y' & a & A1 & A2 & A3 & A4 & A5 & A6).
    + unfold c. by destruct nd.
    + unfold c. by destruct nd.
    + done.
    + cbn [app path_ok fid fd]. split; [|done]. rewrite app_length. done.
    + done.
    + cbn [length]. lia.
    + lia.
    + cbn [length] in *. exists path', (gs ++ [Fr i k x y nd o]), i', k', x', y', a. split_and!; try done.
      * rewrite plug_app, <- A1. rewrite Et. done.
      * apply Forall_app. split; [done|]. by constructor.
      * rewrite app_length. cbn [length]. replace (S (length fs + 1)) with (S (length fs) + 1) by lia. rewrite A3. do 2 f_equal. lia.
      * by rewrite <- app_assoc.
      * rewrite app_length. cbn [length]. rewrite <- A5. f_equal. lia.
Qed.

Lemma next_ok tv c d : rel tv c -> exists tv', tree_next p tv d = Some tv' /\ rel tv' (dirn d c).
Proof.
  destruct tv as [[path ts] eq]. intros Hr.
  assert (Hc : c = Off \/ (exists near far, c = Gap2 d near far) \/ (exists near far k, c = At2 d near far k)).
  { destruct c as [|b a|b k a]; [by left|right; left|right; right]; destruct d; cbn; eauto. }
  destruct Hc as [->|[(near & far & ->)|(near & far & k & ->)]].
  - destruct Hr as [Hl ->]. eexists. split; [done|]. by destruct d.
  - apply rel_Gap2 in Hr as (Hl & fs & HTe & Hp & -> & -> & -> & ->).
    rewrite dirn_Gap. destruct fs as [|f fs].
    { exists (path, 1, false). split; [done|]. by destruct d. }
    unfold tree_next. cbn [length]. destruct (Nat.leb_spec (S (length fs) + 1) 1); [lia|].
    replace (S (length fs) + 1 - 1) with (S (length fs)) by lia.
    pose proof Hp as [Hf _]. rewrite app_length in Hf. cbn [length] in Hf. replace (length fs + 1) with (S (length fs)) in Hf by lia.
    rewrite (path_dir_Some _ _ _ Hf). bind. cbn [snd orb].
    destruct (Bool.eqb_spec (fd f) d) as [E|E].
    + rewrite (path_idx_Some _ _ _ Hf). bind. cbn [fst]. rewrite (upd_Some _ _ _ _ Hf). bind.
      replace (set_dir d (fid f, fd f)) with (fid f, fd f) by (unfold set_dir; cbn; by rewrite E).
      rewrite (list_insert_id _ _ _ Hf).
      assert (Hn : p !! fid f = Some (fcell f 0)).
      { assert (R : rep p (plug1 Leaf f)) by (cbn [plug] in HTe; eapply rep_plug; rewrite <- HTe; exact HT).
        unfold plug1 in R. apply rep_ND in R as [R _]. by destruct f. }
      rewrite (get_next_Some _ _ _ _ Hn). bind. rewrite <- E, next_fcell. cbn [Nat.eqb negb].
      pose proof (pop_ok path (fd f) (f :: fs) Leaf Hp) as Hpop.
      cbn [length] in Hpop. replace (S (length fs) + 1) with (S (S (length fs))) in Hpop by lia.
      rewrite next_pop_S in Hpop. rewrite (path_dir_Some _ _ _ Hf) in Hpop. cbn [mbind option_bind snd] in Hpop. rewrite eqb_reflx in Hpop.
      destruct Hpop as [(g & rest & t' & A1 & A2 & A3 & A4 & A5 & A6 & A7)|[A1 A2]].
      * rewrite A3. bind. eexists. split; [done|]. rewrite A6. apply rel_At2. split; [done|].
        exists rest, (fid g), (fx g), (fy g), (fsib g), t', (negb (fd f)).
        split; [rewrite HTe, A1; unfold plug1; rewrite A2; by rewrite ND_neg|]. split_and!; try done.
        rewrite A7. by rewrite ord_Leaf.
      * rewrite A1. bind. eexists. split; [done|]. rewrite A2. by destruct d.
    + bind. eexists. split; [done|].
      assert (E' : fd f = negb d) by (by destruct d, (fd f)).
      rewrite side_cons. destruct (Bool.eqb_spec (fd f) d) as [?|_]; [done|]. cbn [app].
      apply rel_At2. split; [done|]. exists fs, (fid f), (fx f), (fy f), (fsib f), Leaf, (fd f).
      split; [rewrite HTe; cbn [plug]; unfold plug1; rewrite E'; by rewrite ND_neg|].
      destruct Hp as [_ Hp]. split_and!; try done.
      * rewrite <- Hf. f_equal. lia.
      * lia.
      * rewrite side_cons, E', eqb_reflx. by rewrite ord_Leaf.
  - apply rel_At2 in Hr as (Hl & fs & i & x & y & a & b & e & HTe & Hp & Hi & -> & -> & -> & ->).
    rewrite dirn_At. unfold tree_next. destruct (Nat.leb_spec (length fs + 2) 1); [lia|].
    replace (length fs + 2 - 1) with (length fs + 1) by lia.
    rewrite (path_dir_Some _ _ _ Hi). bind. cbn [orb]. rewrite (path_idx_Some _ _ _ Hi). bind. cbn [fst].
    rewrite (upd_Some _ _ _ _ Hi). bind. change (set_dir d (i, e)) with (i, d).
    set (path1 := <[length fs + 1 := (i, d)]> path).
    assert (Hl1 : length path1 = PATH) by (unfold path1; by rewrite insert_length).
    assert (Hi1 : path1 !! (length fs + 1) = Some (i, d)) by (unfold path1; apply list_lookup_insert; by eapply lookup_lt_Some).
    assert (Hp1 : path_ok path1 (fs ++ [S0])) by (apply path_ok_ins; [rewrite app_length; cbn; lia|done]).
    assert (R : rep p (ND d i k x y a b)) by (eapply rep_plug; rewrite <- HTe; exact HT).
    apply rep_ND in R as (Rn & Ra & Rb). rewrite (get_next_Some _ _ _ _ Rn). bind.
    assert (En : next (fcell (Fr i k x y d b) (rid a)) d = rid a) by (by destruct d). rewrite !En.
    destruct (leaf_dec a) as [->|Ha].
    + cbn [rid Nat.eqb negb]. rewrite ord_Leaf. cbn [app].
      destruct (pop_ok path1 d fs (ND d i k x y Leaf b) Hp1) as [(g & rest & t' & A1 & A2 & A3 & A4 & A5 & A6 & A7)|[A1 A2]].
      * rewrite A3. bind. eexists. split; [done|]. rewrite A6. apply rel_At2. split; [done|].
        exists rest, (fid g), (fx g), (fy g), (fsib g), t', (negb d).
        split; [rewrite HTe, A1; unfold plug1; rewrite A2; by rewrite ND_neg|]. split_and!; try done.
        rewrite A7, ord_ND_neg, ord_Leaf. done.
      * rewrite A1. bind. eexists. split; [done|]. rewrite A2. by destruct d.
    + assert (Hz : 0 ∉ ids a /\ rid a <> 0).
      { assert (Hs : forall j, j ∈ ids a -> j <> 0).
        { intros j Hj ->. apply H0. rewrite HTe. apply in_plug. rewrite ids_ND. right. apply elem_of_app. by left. }
        split; [intros Hx; by apply (Hs 0)|]. apply Hs. by apply rid_in. }
      destruct Hz as [Hz Hz']. destruct (Nat.eqb_spec (rid a) 0); [done|]. cbn [negb].
      pose proof (htplug (ND d i k x y a b) fs) as Hht. rewrite <- HTe in Hht.
      assert (Hha : ht a < ht (ND d i k x y a b)) by (destruct d; cbn; lia).
      destruct (push_ok (negb d) (S PATH) a (Fr i k x y d b :: fs) path1) as (path' & gs & i' & k' & x' & y' & a' & A1 & A2 & A3 & A4 & A5 & A6);
        try done; [cbn [app path_ok fid fd]; split; [by rewrite app_length|done]|cbn [length]; unfold PATH; lia|unfold PATH; lia|].
      cbn [length] in *. replace (S (length fs) + 1) with (length fs + 2) in A3 by lia. rewrite A3. bind. eexists. split; [done|].
      assert (Gs : side (negb d) gs = []).
      { clear -A2. induction gs as [|g gs IH]; [by destruct d|]. inversion A2; subst. rewrite side_cons, H1, eqb_reflx. cbn. by apply IH. }
      rewrite A1, ord_plug, Gs. cbn [rev app]. rewrite ND_neg, ord_ND, ord_Leaf. cbn [app]. rewrite <- app_assoc. 
      apply rel_At2. split; [done|]. exists (gs ++ Fr i k x y d b :: fs), i', x', y', a', Leaf, (negb d).
      rewrite !side_app, !side_cons, Gs. cbn [fd fk fsib]. rewrite eqb_reflx. replace (Bool.eqb d (negb d)) with false by (by destruct d).
      rewrite ord_Leaf, !app_length. cbn [length app].
      split; [rewrite plug_app; cbn [plug]; unfold plug1; cbn [fd fid fk fx fy fsib]; rewrite <- (ND_neg d i'), <- A1; done|].
      split_and!; try done; try (by rewrite <- app_assoc); try lia; try (rewrite <- A5; f_equal; lia).
Qed.

Lemma rel_key tv c : rel tv c -> tv_key p tv = Some (cur_key c).
Proof.
  destruct tv as [[path ts] eq]. unfold tv_key. intros [Hl Hr]. destruct c as [|b a|b k a]; cbn [cur_key].
  - by rewrite Hr.
  - destruct Hr as (fs & _ & _ & -> & -> & _). by destruct (_ <=? _).
  - destruct Hr as (fs & i & x & y & l & r & e & HTe & _ & Hi & -> & -> & _).
    destruct (Nat.leb_spec (length fs + 2) 1); [lia|]. replace (length fs + 2 - 1) with (length fs + 1) by lia.
    rewrite (path_idx_Some _ _ _ Hi). bind. cbn [fst].
    assert (R : rep p (Node i k x y l r)) by (eapply rep_plug; rewrite <- HTe; exact HT).
    destruct R as [R _]. rewrite (rd_lu _ _ _ R). done.
Qed.
End cur.

Section find.
Context (cmp : N -> N -> Z) (Hc : three_way cmp).

Lemma find_rep fuel : forall t fs p path key,
  rep p t -> 0 ∉ ids t -> path_ok path (fs ++ [S0]) -> length path = PATH ->
  length fs + 1 + ht t <= PATH -> ht t < fuel ->
  exists path' fs' s ts eq,
    find_loop cmp fuel p key (rid t) path (length fs + 1) false = Some (path', ts, eq) /\
    length path' = PATH /\ plug s fs' = t /\ path_ok path' (fs' ++ fs ++ [S0]) /\ dirs cmp key fs' /\
    match s with
    | Leaf => eq = false /\ ts = length fs' + length fs + 1
    | Node i k x y l r => eq = true /\ ts = length fs' + length fs + 2 /\ cmp key k = 0%Z /\
        path' !! (length fs' + length fs + 1) = Some (i, false)
    end.
Proof.
  induction fuel as [|fuel IH]; intros t fs p path key Hz Hnz Hp Hl Hh Hf; [lia|]. cbn [find_loop].
  destruct t as [|i k x y l r]; cbn [rid].
  - rewrite Nat.eqb_refl. exists path, [], Leaf, (length fs + 1), false. split_and!; try done. constructor.
  - destruct (Nat.eqb_spec i 0) as [->|Hi]; [exfalso; apply Hnz, mem_m|].
    apply mem_not in Hnz as (Z1 & _ & Z3).
    pose proof Hz as (R & Pl & Pr). rewrite (rd_lu _ _ _ R). bind. cbn [nkey].
    cbn [ht] in Hh, Hf. rewrite wr_Some by lia. bind.
    assert (Hp' : path_ok (<[length fs + 1 := (i, (0 <? cmp key k)%Z)]> path) (fs ++ [S0])).
    { apply path_ok_ins; [rewrite app_length; cbn; lia|done]. }
    assert (Hl' : <[length fs + 1 := (i, (0 <? cmp key k)%Z)]> path !! (length fs + 1) = Some (i, (0 <? cmp key k)%Z)).
    { apply list_lookup_insert. lia. }
    destruct (Z.eqb_spec (cmp key k) 0) as [E|E].
    + exists (<[length fs + 1 := (i, (0 <? cmp key k)%Z)]> path), [], (Node i k x y l r), (length fs + 2), true.
      split; [by replace (S (length fs + 1)) with (length fs + 2) by lia|]. split; [by rewrite insert_length|].
      split; [done|]. split; [done|]. split; [constructor|]. split; [done|]. split; [done|]. split; [done|].
      cbn [length Nat.add]. rewrite Hl'. by rewrite E.
    + set (d := (0 <? cmp key k)%Z) in *.
      set (path1 := <[length fs + 1 := (i, d)]> path) in *.
      set (f := Fr i k x y d (if d then l else r)) in *.
      assert (En : next (Nd k (rid l) (rid r) x y) d = rid (if d then r else l)) by (by destruct d).
      rewrite En.
      destruct (IH (if d then r else l) (f :: fs) p path1 key) as (path' & fs' & s & ts & eq & E1 & L1 & P1 & K1 & D1 & M1).
      * by destruct d.
      * by destruct d.
      * cbn [app path_ok]. split; [|done]. rewrite app_length. done.
      * unfold path1. by rewrite insert_length.
      * cbn [length]. destruct d; lia.
      * destruct d; lia.
      * cbn [length] in *. replace (S (length fs) + 1) with (S (length fs + 1)) in * by lia.
        exists path', (fs' ++ [f]), s, ts, eq. split; [exact E1|]. split; [done|].
        split; [rewrite plug_app, P1; cbn; unfold plug1, f; cbn; by destruct d|].
        split; [by rewrite <- app_assoc|].
        split; [apply Forall_app; split; [done|]; constructor; [|constructor]; by split|].
        rewrite app_length. cbn [length].
        destruct s; [|destruct M1 as (? & ? & ? & M1); split_and!; try done; [lia|]].
        -- destruct M1. split; [done|]. lia.
        -- rewrite <- M1. f_equal. lia.
Qed.

Lemma filter_all {A} (f : A -> bool) l : (forall x, x ∈ l -> f x = true) -> List.filter f l = l.
Proof.
  induction l as [|x l IH]; intros H; cbn; [done|]. rewrite (H x) by left. f_equal. apply IH. intros y Hy. apply H. by right.
Qed.
Lemma filter_none {A} (f : A -> bool) l : (forall x, x ∈ l -> f x = false) -> List.filter f l = [].
Proof.
  induction l as [|x l IH]; intros H; cbn; [done|]. rewrite (H x) by left. apply IH. intros y Hy. apply H. by right.
Qed.

Lemma find_rel p T key path0 : linked p T -> strictly_sorted_by cmp (inorder T) -> ht T <= 62 -> length path0 = PATH ->
  exists tv, tree_find cmp p (length p) key path0 = Some tv /\ rel T tv (cur_find cmp (inorder T) key).
Proof.
  intros HT Hs Hh Hl. unfold tree_find. rewrite wr_Some by (rewrite Hl; unfold PATH; lia). bind.
  set (path1 := <[0 := (0, false)]> path0).
  assert (Hl1 : length path1 = PATH) by (unfold path1; by rewrite insert_length).
  assert (Hp : path_ok path1 ([] ++ [S0])).
  { cbn. split; [|done]. apply list_lookup_insert. rewrite Hl. unfold PATH. lia. }
  destruct (Nat.leb_spec 2 (length p)) as [H2|H2].
  - destruct HT as [[-> _]|(HT & (n & Hn & Hr) & Hids & _)]; [cbn in H2; lia|].
    assert (H0 : 0 ∉ ids T) by (rewrite Hids, elem_of_seq; lia).
    rewrite (get_next_Some _ _ _ _ Hn). bind. cbn [next]. rewrite Hr.
    destruct (find_rep (S PATH) T [] p path1 key) as (path' & fs & s & ts & eq & E & L & P & K & D & M); try done.
    { cbn. unfold PATH. lia. } { unfold PATH. lia. }
    cbn [length Nat.add] in *. rewrite E. eexists. split; [done|]. cbn [app] in K. rewrite !Nat.add_0_r in M.
    unfold cur_find. rewrite <- P in Hs |- *. destruct (dirs_bounds cmp Hc path0 Hl rbInv rbInv_erase rbInv_leaf rbInv_height _ _ rb_add_ctx rb_rebalance_del_ok _ _ _ D Hs) as [B1 B2].
    destruct s as [|i k x y l r].
    + rewrite (find_leaf cmp Hc path0 Hl rbInv rbInv_erase rbInv_leaf rbInv_height _ _ rb_add_ctx rb_rebalance_del_ok _ _ D Hs). destruct M as [-> ->]. split; [done|]. exists fs. split_and!; try done.
      * rewrite inorder_plug. cbn [inorder app]. rewrite List.filter_app, filter_all, filter_none.
        -- by rewrite app_nil_r.
        -- intros z Hz. specialize (B2 _ Hz). lia.
        -- intros z Hz. specialize (B1 _ Hz). lia.
      * rewrite inorder_plug. cbn [inorder app]. rewrite List.filter_app, filter_none, filter_all.
        -- done.
        -- intros z Hz. specialize (B2 _ Hz). lia.
        -- intros z Hz. specialize (B1 _ Hz). lia.
    + destruct M as (-> & -> & M1 & M2). rewrite (find_node cmp Hc path0 Hl rbInv rbInv_erase rbInv_leaf rbInv_height _ _ rb_add_ctx rb_rebalance_del_ok _ _ _ _ _ _ _ _ M1 Hs). split; [done|].
      exists fs, i, x, y, l, r, false. split_and!; try done.
      * rewrite inorder_plug in Hs. apply ss_app in Hs as (_ & Hs & _). apply ss_app in Hs as (Hs & _ & _).
        cbn [inorder] in Hs. apply ss_app in Hs as (_ & Hkr & Hlk). apply ss_cons in Hkr as [_ Hkr].
        rewrite inorder_plug. cbn [inorder]. rewrite !List.filter_app. cbn [List.filter].
        rewrite M1. cbn [Z.ltb Z.compare]. rewrite (filter_all _ (cl fs)), (filter_all _ (inorder l)), (filter_none _ (inorder r)), (filter_none _ (cr fs)).
        -- rewrite !app_nil_r, rev_app_distr. done.
        -- intros z Hz. specialize (B2 _ Hz). lia.
        -- intros z Hz. specialize (Hkr _ Hz). pose proof (tw_eq_l cmp Hc key k z M1). lia.
        -- intros z Hz. specialize (Hlk _ k Hz ltac:(left)). pose proof (tw_eq_l cmp Hc key k z M1).
           apply (tw_lt cmp Hc) in Hlk. lia.
        -- intros z Hz. specialize (B1 _ Hz). lia.
      * rewrite inorder_plug in Hs. apply ss_app in Hs as (_ & Hs & _). apply ss_app in Hs as (Hs & _ & _).
        cbn [inorder] in Hs. apply ss_app in Hs as (_ & Hkr & Hlk). apply ss_cons in Hkr as [_ Hkr].
        rewrite inorder_plug. cbn [inorder]. rewrite !List.filter_app. cbn [List.filter].
        rewrite M1. cbn [Z.ltb Z.compare]. rewrite (filter_none _ (cl fs)), (filter_none _ (inorder l)), (filter_all _ (inorder r)), (filter_all _ (cr fs)).
        -- done.
        -- intros z Hz. specialize (B2 _ Hz). lia.
        -- intros z Hz. specialize (Hkr _ Hz). pose proof (tw_eq_l cmp Hc key k z M1). lia.
        -- intros z Hz. specialize (Hlk _ k Hz ltac:(left)). pose proof (tw_eq_l cmp Hc key k z M1).
           apply (tw_lt cmp Hc) in Hlk. lia.
        -- intros z Hz. specialize (B1 _ Hz). lia.
  - eexists. split; [done|]. assert (T = Leaf) as ->.
    { destruct HT as [[_ ?]|(HT & _ & Hids & Hne)]; [done|]. destruct T as [|i k x y l r]; [done|]. exfalso.
      destruct p as [|? [|]]; try done; [|cbn in H2; lia]. cbn in Hids. apply Permutation_nil_r in Hids.
      by destruct (ids l). }
    cbn. split; [done|]. exists []. done.
Qed.

(** All calls of the cursor after a search. *)
Fixpoint next_all (p : list node) (tv : path_t * nat * bool) (ds : list bool) : option (path_t * nat * bool) :=
  match ds with [] => Some tv | d :: ds => tv ← tree_next p tv d; next_all p tv ds end.

Lemma cursor_ok p T key path0 ds : linked p T -> strictly_sorted_by cmp (inorder T) -> ht T <= 62 -> length path0 = PATH ->
  exists tv tv', tree_find cmp p (length p) key path0 = Some tv /\ next_all p tv ds = Some tv' /\
    tv_key p tv' = Some (cur_key (fold_left (fun c d => dirn d c) ds (cur_find cmp (inorder T) key))).
Proof.
  intros HT Hs Hh Hl. destruct (find_rel p T key path0 HT Hs Hh Hl) as (tv & E & R). exists tv.
  enough (G : forall ds tv c, rel T tv c -> exists tv', next_all p tv ds = Some tv' /\
    tv_key p tv' = Some (cur_key (fold_left (fun c d => dirn d c) ds c))).
  { destruct (G ds tv _ R) as (tv' & E1 & E2). exists tv'. done. }
  assert (HTr : rep p T) by (destruct HT as [[_ ->]|[? _]]; done).
  assert (H0 : 0 ∉ ids T).
  { destruct HT as [[_ ->]|(_ & _ & -> & _)]; [apply not_elem_of_nil|]. rewrite elem_of_seq. lia. }
  clear -HTr H0 Hh. induction ds as [|d ds IH]; intros tv c R; cbn [next_all fold_left].
  - exists tv. split; [done|]. by eapply rel_key.
  - destruct (next_ok p T HTr H0 Hh tv c d R) as (tv1 & E & R1). rewrite E. bind. by apply IH.
Qed.
End find.

(** *** Trees built by the public functions are valid *)
Section history.
Context (cmp : N -> N -> Z) (Hc : three_way cmp) (path0 : path_t) (Hpath0 : length path0 = PATH).
Lemma rb_valid_history ops : (Z.of_nat (length ops) < 2 ^ 31)%Z ->
  exists rs m, run (rb_step cmp path0) tree_ic_new ops = Some (rs, m) /\ rbtree_is_valid cmp (pool (tr m)) true = Some true.
Proof.
  intros Hb. destruct (tree_run_ok cmp Hc path0 Hpath0 rbInv rbInv_erase rbInv_leaf rbInv_height _ _ rb_add_ctx
    rb_rebalance_del_ok ops tree_ic_new Leaf []) as (rs & m & t & s & E & F & T & P & S & _).
  - by eapply trep_empty; try done; eauto using rbInv_leaf.
  - done.
  - cbn. lia.
  - exists rs, m. split; [done|]. apply rb_valid_iff; [done|]. exists t. split; [exact (trep_linked cmp path0 Hpath0 rbInv rbInv_erase rbInv_height _ _ T)|].
    split; [apply T|]. split; [|split; [apply T|]].
    + assert (ht t <= 60); [|lia]. apply rbInv_height; [apply T|]. cbn in S. lia.
    + intros n Hn. destruct (decide (pool (tr m) = [])) as [E0|E0]; [by rewrite E0 in Hn|].
      destruct T as (_ & _ & _ & [[? _]|[(_ & (H & _) & _) Hl]]); [done|]. cbn in H. rewrite H in Hn.
      injection Hn as <-. cbn. split; [lia|done].
Qed.
Lemma avl_valid_history ops : (Z.of_nat (length ops) < 2 ^ 31)%Z ->
  exists rs m, run (avl_step cmp path0) tree_ic_new ops = Some (rs, m) /\ avltree_is_valid cmp (pool (tr m)) true = Some true.
Proof.
  intros Hb. destruct (tree_run_ok cmp Hc path0 Hpath0 avlInv avlInv_erase avlInv_leaf avlInv_height _ _ avl_add_ctx
    avl_del_ctx ops tree_ic_new Leaf []) as (rs & m & t & s & E & F & T & P & S & _).
  - by eapply trep_empty; try done; eauto using avlInv_leaf.
  - done.
  - cbn. lia.
  - exists rs, m. split; [done|]. apply avl_valid_iff; [done|]. exists t. split; [exact (trep_linked cmp path0 Hpath0 avlInv avlInv_erase avlInv_height _ _ T)|].
    split; [apply T|]. split; [|split; [apply avl_marks_ok, T|]].
    + assert (ht t <= 60); [|lia]. apply avlInv_height; [apply T|]. cbn in S. lia.
    + intros n Hn. destruct (decide (pool (tr m) = [])) as [E0|E0]; [by rewrite E0 in Hn|].
      destruct T as (_ & _ & _ & [[? _]|[(_ & (H & _) & _) Hl]]); [done|]. cbn in H. rewrite H in Hn.
      injection Hn as <-. cbn. lia.
Qed.
End history.
