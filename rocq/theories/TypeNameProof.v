From Verif Require Import Base TypeName.
Local Open Scope Z_scope.

(** *** Tokens *)
(** Walk over the tokens of a string, a token being a maximal sequence of
    characters other than blank, tab and star; [acc] is the part of the current
    token read so far.  Tokens in [K] become blanks. *)
Definition flush (K : list Z -> bool) (acc : list Z) : list Z :=
  if K acc then replicate (length acc) 32 else acc.
Fixpoint go (K : list Z -> bool) (acc s : list Z) : list Z :=
  match s with
  | [] => flush K acc
  | c :: s => if isdelim c then flush K acc ++ c :: go K [] s else go K (acc ++ [c]) s
  end.

Definition nodelim (w : list Z) : Prop := Forall (fun c => isdelim c = false) w.
Definition starts_delim (s : list Z) : Prop := match s with [] => True | c :: _ => isdelim c = true end.

(** Remaining part of the current token. *)
Fixpoint tok (s : list Z) : list Z :=
  match s with [] => [] | c :: s => if isdelim c then [] else c :: tok s end.
Fixpoint aft (s : list Z) : list Z :=
  match s with [] => [] | c :: s' => if isdelim c then s else aft s' end.

Lemma tok_aft s : tok s ++ aft s = s.
Proof. induction s as [|c s IH]; [done|]. cbn. destruct (isdelim c); [done|]. cbn. by rewrite IH. Qed.
Lemma tok_nodelim s : nodelim (tok s).
Proof. induction s as [|c s IH]; cbn; [constructor|]. destruct (isdelim c) eqn:E; [constructor|]. by constructor. Qed.
Lemma aft_starts s : starts_delim (aft s).
Proof. induction s as [|c s IH]; cbn; [done|]. by destruct (isdelim c) eqn:E. Qed.
Lemma aft_length s : (length (aft s) <= length s)%nat.
Proof. rewrite <- (tok_aft s) at 2. rewrite app_length. lia. Qed.

Lemma go_nodelim K acc w s : nodelim w -> go K acc (w ++ s) = go K (acc ++ w) s.
Proof.
  revert acc. induction w as [|c w IH]; intros acc H; [by rewrite app_nil_r|].
  apply Forall_cons_1 in H as [Hc Hw]. cbn [app go]. rewrite Hc, IH by done. by rewrite <- app_assoc.
Qed.
Lemma go_token K acc s : go K acc s = flush K (acc ++ tok s) ++ match aft s with [] => [] | d :: r => d :: go K [] r end.
Proof.
  rewrite <- (tok_aft s) at 1. rewrite go_nodelim by apply tok_nodelim.
  pose proof (aft_starts s) as H. destruct (aft s) as [|d r]; cbn; [by rewrite app_nil_r|].
  cbn in H. by rewrite H.
Qed.
Lemma flush_length K acc : length (flush K acc) = length acc.
Proof. unfold flush. destruct (K acc); [by rewrite replicate_length|done]. Qed.
Lemma go_length K acc s : length (go K acc s) = (length acc + length s)%nat.
Proof.
  revert acc. induction s as [|c s IH]; intros acc; cbn [go].
  - rewrite flush_length. cbn. lia.
  - destruct (isdelim c).
    + rewrite app_length, flush_length. cbn. rewrite IH. cbn. lia.
    + rewrite IH, app_length. cbn. lia.
Qed.

(** *** strstr *)
Lemma is_prefix_spec kw s : is_prefix kw s = true <-> exists y, s = kw ++ y.
Proof.
  revert s. induction kw as [|k kw IH]; intros s; cbn; [split; [by exists s|done]|].
  destruct s as [|c s]; [split; [done|intros [y [=]]]|].
  rewrite andb_true_iff, Z.eqb_eq, IH. split.
  - intros [-> [y ->]]. by exists y.
  - intros [y [= -> ->]]. split; [done|by exists y].
Qed.
Lemma strstr_Some s kw n : strstr s kw = Some n ->
  exists x y, s = x ++ kw ++ y /\ length x = n /\
    (forall x' y', s = x' ++ kw ++ y' -> (n <= length x')%nat).
Proof.
  revert n. induction s as [|c s IH]; intros n; cbn [strstr].
  - destruct (is_prefix kw []) eqn:E; [|done]. intros [= <-].
    apply is_prefix_spec in E as [y Hy]. exists [], y. split; [done|]. split; [done|]. intros; lia.
  - destruct (is_prefix kw (c :: s)) eqn:E.
    + intros [= <-]. apply is_prefix_spec in E as [y Hy]. exists [], y. split; [done|]. split; [done|]. intros; lia.
    + destruct (strstr s kw) as [m|]; [|done]. intros [= <-].
      destruct (IH m eq_refl) as (x & y & -> & Hx & Hmin). exists (c :: x), y. split; [done|]. split; [cbn; lia|].
      intros x' y' E'. destruct x' as [|c' x'].
      * exfalso. cbn in E'. assert (is_prefix kw (c :: x ++ kw ++ y) = true) by (apply is_prefix_spec; by exists y'). congruence.
      * injection E' as <- E'. cbn. specialize (Hmin x' y' E'). lia.
Qed.
Lemma strstr_None s kw : strstr s kw = None -> forall x y, s <> x ++ kw ++ y.
Proof.
  induction s as [|c s IH]; cbn [strstr].
  - destruct (is_prefix kw []) eqn:E; [done|]. intros _ x y H.
    symmetry in H. apply app_eq_nil in H as [-> H].
    assert (is_prefix kw [] = true) by (apply is_prefix_spec; by exists y). congruence.
  - destruct (is_prefix kw (c :: s)) eqn:E; [done|].
    destruct (strstr s kw); [done|]. intros _ x y H. destruct x as [|d x].
    + assert (is_prefix kw (c :: s) = true) by (apply is_prefix_spec; by exists y). congruence.
    + injection H as -> H. by apply (IH eq_refl x y).
Qed.

(** *** One keyword *)
Section kw.
Context (kw : list Z) (Hne : kw <> []) (Hnd : nodelim kw).
Definition K1 (w : list Z) : bool := bool_decide (w = kw).

Lemma flush_other w : w <> kw -> flush K1 w = w.
Proof. intros H. unfold flush, K1. by rewrite bool_decide_eq_false_2. Qed.
Lemma flush_kw : flush K1 kw = replicate (length kw) 32.
Proof. unfold flush, K1. by rewrite bool_decide_eq_true_2. Qed.

(** No occurrence left: nothing changes. *)
Lemma go_none acc s :
  acc ++ tok s <> kw -> (forall x y, s <> x ++ kw ++ y) -> go K1 acc s = acc ++ s.
Proof.
  remember (length s) as n eqn:En. revert acc s En.
  induction (lt_wf n) as [n _ IH]. intros acc s -> Ht Hno.
  rewrite go_token, flush_other by done. rewrite <- app_assoc. f_equal.
  rewrite <- (tok_aft s) at 3. f_equal.
  destruct (aft s) as [|d r] eqn:Ea; [done|]. f_equal.
  pose proof (aft_length s) as Hl. rewrite Ea in Hl. cbn in Hl.
  apply (IH (length r)); [lia|done| |].
  - intros E. cbn in E. apply (Hno (tok s ++ [d]) (aft r)).
    rewrite <- (tok_aft s) at 1. rewrite Ea. rewrite <- (tok_aft r) at 1. rewrite E, <- app_assoc. done.
  - intros x y ->. apply (Hno (tok s ++ d :: x) y). rewrite <- (tok_aft s) at 1. rewrite Ea, <- app_assoc. done.
Qed.

(** The part before the first occurrence is passed unchanged; [t] is the current
    token at its end. *)
Lemma go_before acc x z :
  acc ++ tok (x ++ z) <> kw \/ aft x = [] ->
  nodelim acc ->
  (forall x' y', x ++ z = x' ++ kw ++ y' -> (length x <= length x')%nat) ->
  exists p t, acc ++ x = p ++ t /\ nodelim t /\ (p = [] \/ exists q d, p = q ++ [d] /\ isdelim d = true) /\
    (p = [] -> t = acc ++ x) /\
    go K1 acc (x ++ z) = p ++ go K1 t z.
Proof.
  remember (length x) as n eqn:En. revert acc x En.
  induction (lt_wf n) as [n _ IH]. intros acc x -> Ht Hacc Hmin.
  destruct (aft x) as [|d r] eqn:Ea.
  - (* no delimiter in x *)
    assert (Hx : nodelim x). { rewrite <- (tok_aft x), Ea, app_nil_r. apply tok_nodelim. }
    exists [], (acc ++ x). split; [done|]. split; [by apply Forall_app|]. split; [by left|]. split; [done|].
    by rewrite go_nodelim.
  - destruct Ht as [Ht|]; [|done].
    assert (Ex : x = tok x ++ d :: r) by (rewrite <- Ea; symmetry; apply tok_aft).
    assert (Hd : isdelim d = true). { pose proof (aft_starts x) as H. rewrite Ea in H. done. }
    assert (Etok : tok (x ++ z) = tok x).
    { rewrite Ex at 1. generalize (tok_nodelim x). generalize (tok x). induction l as [|c l IHl]; intros Hl; cbn.
      - by rewrite Hd.
      - apply Forall_cons_1 in Hl as [-> Hl]. f_equal. by apply IHl. }
    rewrite Etok in Ht.
    pose proof (aft_length x) as Hl. rewrite Ea in Hl. cbn in Hl.
    assert (Hlr : (length r < length x)%nat) by lia.
    destruct (IH (length r) Hlr [] r eq_refl) as (p & t & E & Hnt & Hp & Hpt & Hgo); [|constructor| |].
    + destruct (aft r) as [|d' r'] eqn:Ear; [by right|]. left. cbn. intros Etr.
      (* the token at the start of r would be an occurrence before the end of x *)
      assert (Hr : r = tok r ++ d' :: r') by (rewrite <- Ear; symmetry; apply tok_aft).
      assert (Hd' : isdelim d' = true). { pose proof (aft_starts r) as H. rewrite Ear in H. done. }
      assert (Etr' : tok (r ++ z) = tok r).
      { rewrite Hr at 1. generalize (tok_nodelim r). generalize (tok r). induction l as [|c l IHl]; intros Hl'; cbn.
        - by rewrite Hd'.
        - apply Forall_cons_1 in Hl' as [-> Hl']. f_equal. by apply IHl. }
      rewrite Etr' in Etr.
      assert (Hm : (length x <= length (tok x ++ [d]))%nat).
      { apply (Hmin _ (d' :: r' ++ z)). rewrite Ex at 1. rewrite <- Etr, <- !app_assoc. cbn. f_equal. f_equal.
        rewrite Hr at 1. rewrite <- app_assoc. done. }
      apply (f_equal length) in Ex, Hr. rewrite app_length in Ex, Hr, Hm. cbn in Ex, Hr, Hm. lia.
    + intros x' y' E. assert (Hm : (length x <= length (tok x ++ d :: x'))%nat).
      { apply (Hmin _ y'). rewrite Ex at 1. rewrite <- !app_assoc. cbn. f_equal. f_equal. done. }
      apply (f_equal length) in Ex. rewrite app_length in Ex, Hm. cbn in Ex, Hm. lia.
    + cbn in E. exists (acc ++ tok x ++ d :: p), t. split.
      { rewrite Ex at 1. rewrite E, <- !app_assoc. done. }
      split; [done|]. split.
      { right. destruct Hp as [->|(q & d' & -> & Hd')].
        - exists (acc ++ tok x), d. split; [by rewrite <- app_assoc|done].
        - exists (acc ++ tok x ++ d :: q), d'. split; [|done]. rewrite <- !app_assoc. done. }
      split.
      { intros E0. apply app_eq_nil in E0 as [_ E0]. by apply app_eq_nil in E0 as [_ E0]. }
      rewrite Ex at 1. rewrite <- app_assoc, go_nodelim by apply tok_nodelim. cbn [app go]. rewrite Hd.
      rewrite flush_other by done. rewrite Hgo. rewrite <- !app_assoc. done.
Qed.

Lemma kw_loop_ok fuel p acc rest :
  (length rest < fuel)%nat ->
  nodelim acc -> (p = [] \/ exists q d, p = q ++ [d] /\ isdelim d = true) ->
  (acc = [] \/ ((length kw <= length acc)%nat /\ (acc = kw -> exists c r, rest = c :: r /\ isdelim c = false))) ->
  kw_loop fuel kw (p ++ acc ++ rest) (length (p ++ acc)) = Some (p ++ go K1 acc rest).
Proof.
  revert p acc rest. induction fuel as [|fuel IH]; intros p acc rest Hf Hacc Hp Hok; [lia|].
  assert (Hkl : (0 < length kw)%nat) by (destruct kw; [done|cbn; lia]).
  cbn [kw_loop]. rewrite app_assoc, drop_app.
  assert (Htok : acc <> [] -> acc ++ tok rest <> kw).
  { intros Hna E. destruct Hok as [|[Hl Hk]]; [done|].
    assert (Hlen : length (acc ++ tok rest) = length kw) by (by rewrite E). rewrite app_length in Hlen.
    assert (tok rest = []) as E0 by (apply nil_length_inv; lia). rewrite E0, app_nil_r in E.
    destruct (Hk E) as (c & r & -> & Hc). cbn in E0. by rewrite Hc in E0. }
  destruct (strstr rest kw) as [off|] eqn:Es.
  2:{ f_equal. rewrite <- app_assoc. f_equal. symmetry.
      pose proof (strstr_None _ _ Es) as Hno. apply go_none; [|done].
      destruct acc as [|a acc']; [|by apply Htok]. cbn. intros E. apply (Hno [] (aft rest)). cbn. by rewrite <- E, tok_aft. }
  destruct (strstr_Some _ _ _ Es) as (x & y & -> & Hx & Hmin).
  destruct (go_before acc x (kw ++ y)) as (p' & t & E & Hnt & Hp' & Hpt & Hgo); [|done|by rewrite Hx|].
  { destruct acc as [|a acc']; [|left; by apply Htok].
    destruct (aft x) as [|d r] eqn:Ea; [by right|]. left. cbn. intros E.
    assert (Hm : (off <= 0)%nat).
    { apply (Hmin [] (aft (x ++ kw ++ y))). cbn. rewrite <- (tok_aft (x ++ kw ++ y)) at 1. by rewrite E. }
    assert (x = []) by (apply nil_length_inv; lia). subst x. cbn in Ea. done. }
  assert (Epos : (length (p ++ acc) + off)%nat = length (p ++ p' ++ t)).
  { rewrite !app_length. apply (f_equal length) in E. rewrite !app_length in E. lia. }
  rewrite Epos.
  assert (Es' : (p ++ acc) ++ x ++ kw ++ y = (p ++ p' ++ t) ++ kw ++ y).
  { rewrite <- !app_assoc. f_equal. rewrite app_assoc, E, <- !app_assoc. done. }
  rewrite Es'. set (P := p ++ p' ++ t).
  assert (Hnext : ch (P ++ kw ++ y) (length P + length kw) = Some (match y with [] => 0 | c :: _ => c end)).
  { unfold ch, rd. rewrite <- !app_assoc. rewrite lookup_app_r by lia.
    replace (length P + length kw - length P)%nat with (length kw) by lia.
    rewrite lookup_app_r by lia. rewrite Nat.sub_diag. by destruct y. }
  rewrite Hnext. cbn [mbind option_bind].
  assert (Hprev : (if Nat.eqb (length P) 0 then Some true else c ← ch (P ++ kw ++ y) (length P - 1); Some (isdelim c))
                  = Some (bool_decide (t = []))).
  { destruct t as [|a t0] using rev_ind.
    - rewrite bool_decide_eq_true_2 by done. unfold P. rewrite app_nil_r.
      assert (HP : p ++ p' = [] \/ exists q d, p ++ p' = q ++ [d] /\ isdelim d = true).
      { destruct Hp' as [->|(q & d & -> & Hd)].
        - rewrite app_nil_r. done.
        - right. exists (p ++ q), d. split; [by rewrite <- app_assoc|done]. }
      destruct HP as [->|(q & d & -> & Hd)]; [done|].
      rewrite app_length. cbn [length]. replace (Nat.eqb (length q + 1) 0) with false by (symmetry; apply Nat.eqb_neq; lia).
      unfold ch, rd. rewrite <- !app_assoc, lookup_app_r by lia.
      replace (length q + 1 - 1 - length q)%nat with 0%nat by lia. cbn. by rewrite Hd.
    - clear IHt0. apply Forall_app in Hnt as [_ Ha]. apply Forall_cons_1 in Ha as [Ha _].
      rewrite bool_decide_eq_false_2 by (intros E0; by apply app_eq_nil in E0 as [_ E0]).
      assert (EP : P = (p ++ p' ++ t0) ++ [a]) by (unfold P; rewrite <- !app_assoc; done).
      rewrite EP. rewrite app_length. cbn [length].
      set (Q := p ++ p' ++ t0). replace (Nat.eqb (length Q + 1) 0) with false by (symmetry; apply Nat.eqb_neq; lia).
      unfold ch, rd. rewrite <- !app_assoc, lookup_app_r by lia.
      replace (length Q + 1 - 1 - length Q)%nat with 0%nat by lia. cbn. by rewrite Ha. }
  rewrite Hprev. cbn [mbind option_bind].
  assert (Hres : p ++ go K1 acc (x ++ kw ++ y) = (p ++ p') ++ go K1 t (kw ++ y)).
  { rewrite Hgo, <- app_assoc. done. }
  rewrite Hres.
  assert (Hyl : (length y < fuel)%nat). { rewrite !app_length in Hf. lia. }
  destruct (isdelim match y with [] => 0 | c :: _ => c end && bool_decide (t = [])) eqn:Erep.
  - apply andb_true_iff in Erep as [Hy Ht]. apply bool_decide_eq_true_1 in Ht. subst t.
    assert (EP : P = p ++ p') by (unfold P; by rewrite app_nil_r).
    unfold memset_blank. rewrite app_length.
    replace (length P + length kw <=? length P + length (kw ++ y))%nat with true
      by (symmetry; apply Nat.leb_le; rewrite app_length; lia).
    rewrite take_app. rewrite <- drop_drop, drop_app, drop_app. cbn [mbind option_bind].
    replace (P ++ replicate (length kw) 32 ++ y) with ((P ++ replicate (length kw) 32) ++ [] ++ y)
      by (by rewrite <- app_assoc).
    replace (length P + length kw)%nat with (length ((P ++ replicate (length kw) 32) ++ []))
      by (rewrite app_nil_r, app_length, replicate_length; done).
    rewrite IH; [|done|constructor| |by left].
    + f_equal. rewrite EP, <- !app_assoc. do 2 f_equal.
      rewrite go_nodelim by done. cbn [app].
      assert (F0 : flush K1 [] = []) by (apply flush_other; congruence).
      destruct y as [|c y]; cbn [go]; [by rewrite flush_kw, F0, app_nil_r|]. cbn in Hy. rewrite Hy, flush_kw, F0. done.
    + right. exists (P ++ replicate (length kw - 1) 32), 32. split; [|done].
      rewrite <- app_assoc. f_equal. destruct (length kw) as [|m]; [lia|]. rewrite Nat.sub_succ, Nat.sub_0_r.
      apply (replicate_S_end m 32).
  - cbn [mbind option_bind].
    replace (P ++ kw ++ y) with ((p ++ p') ++ (t ++ kw) ++ y) by (unfold P; by rewrite <- !app_assoc).
    replace (length P + length kw)%nat with (length ((p ++ p') ++ t ++ kw)) by (unfold P; rewrite !app_length; lia).
    rewrite IH; [|done|by apply Forall_app| |].
    + f_equal. f_equal. by rewrite go_nodelim.
    + destruct Hp' as [->|(q & d & -> & Hd)].
      * by rewrite app_nil_r.
      * right. exists (p ++ q), d. split; [by rewrite <- app_assoc|done].
    + right. split; [rewrite app_length; lia|]. intros E0.
      assert (t = []) as ->.
      { apply (f_equal length) in E0. rewrite app_length in E0. apply nil_length_inv. lia. }
      rewrite bool_decide_eq_true_2, andb_true_r in Erep by done.
      destruct y as [|c y]; [done|]. by exists c, y.
Qed.
End kw.

(** *** All keywords *)
Definition Kin (kws : list (list Z)) (w : list Z) : bool := bool_decide (w ∈ kws).

Lemma flush_go K1' K2' acc z :
  nodelim acc -> K2' [] = false ->
  forall c, isdelim c = true ->
  go K2' [] (flush K1' acc ++ c :: z) = flush (fun w => K1' w || K2' w) acc ++ c :: go K2' [] z.
Proof.
  intros Hn H2 c Hc. unfold flush. destruct (K1' acc); cbn [orb].
  - generalize (length acc). induction n as [|n IH]; cbn.
    + rewrite Hc. unfold flush. by rewrite H2.
    + unfold flush. rewrite H2. cbn. by rewrite IH.
  - rewrite go_nodelim by done. cbn. rewrite Hc. unfold flush. done.
Qed.
Lemma flush_go_end K1' K2' acc :
  nodelim acc -> K2' [] = false ->
  go K2' [] (flush K1' acc) = flush (fun w => K1' w || K2' w) acc.
Proof.
  intros Hn H2. unfold flush. destruct (K1' acc); cbn [orb].
  - generalize (length acc). induction n as [|n IH]; cbn; unfold flush; rewrite H2; [done|]. cbn. by rewrite IH.
  - rewrite <- (app_nil_r acc) at 1. rewrite go_nodelim by done. cbn. done.
Qed.
Lemma go_go K1' K2' acc s :
  nodelim acc -> K2' [] = false ->
  go K2' [] (go K1' acc s) = go (fun w => K1' w || K2' w) acc s.
Proof.
  intros Hn H2. revert acc Hn. induction s as [|c s IH]; intros acc Hn; cbn [go].
  - by apply flush_go_end.
  - destruct (isdelim c) eqn:E.
    + rewrite flush_go by done. f_equal. f_equal. apply IH. constructor.
    + apply IH. apply Forall_app. split; [done|]. by constructor.
Qed.
Lemma go_ext K K' acc s : (forall w, K w = K' w) -> go K acc s = go K' acc s.
Proof.
  intros H. revert acc. induction s as [|c s IH]; intros acc; cbn [go]; unfold flush.
  - by rewrite H.
  - rewrite H, !IH. done.
Qed.

Lemma kws_loop_ok kws s :
  Forall (fun kw => kw <> [] /\ nodelim kw) kws -> kws_loop kws s = Some (go (Kin kws) [] s).
Proof.
  intros H. revert s. induction H as [|kw kws [Hne Hnd] H IH]; intros s; cbn [kws_loop].
  - f_equal. symmetry. 
    assert (Hid : forall acc, go (Kin []) acc s = acc ++ s); [|apply Hid].
    induction s as [|c s IH]; intros acc; cbn [go]; unfold flush; replace (Kin [] acc) with false by done.
    + by rewrite app_nil_r.
    + destruct (isdelim c); rewrite IH; [done|]. by rewrite <- app_assoc.
  - pose proof (kw_loop_ok kw Hne Hnd (S (length s)) [] [] s) as E. cbn [app length] in E. rewrite E; clear E;
      [|lia|constructor|by left|by left].
    cbn [mbind option_bind]. rewrite IH. f_equal. rewrite go_go; [|constructor|].
    + apply go_ext. intros w. unfold K1, Kin. apply eq_true_iff_eq.
      rewrite orb_true_iff, !bool_decide_eq_true, elem_of_cons. done.
    + unfold Kin. apply bool_decide_eq_false_2. intros Hin. rewrite Forall_forall in H. by destruct (H [] Hin).
Qed.

Lemma keywords_ok : Forall (fun kw => kw <> [] /\ nodelim kw) keywords.
Proof. repeat constructor; done. Qed.

(** *** Blanks *)
Fixpoint squeeze (prev : bool) (s : list Z) : list Z :=
  match s with
  | [] => []
  | c :: s => if isspace c then squeeze true s else (if prev then [32] else []) ++ c :: squeeze false s
  end.
Fixpoint lstrip (s : list Z) : list Z :=
  match s with [] => [] | c :: s' => if isspace c then lstrip s' else s end.

Definition nonul (s : list Z) : Prop := Forall (fun c => c <> 0) s.

Lemma skip_loop_ok fuel p s :
  (length s < fuel)%nat ->
  exists i, skip_loop fuel (p ++ s ++ [0]) (length p) = Some i /\
    exists g, s = g ++ lstrip s /\ i = length (p ++ g).
Proof.
  revert p s. induction fuel as [|fuel IH]; intros p s Hf; [lia|]. cbn [skip_loop].
  destruct s as [|c s].
  - cbn [app]. rewrite (rd_lu _ _ 0) by (by apply list_lookup_middle). cbn.
    eexists. split; [done|]. exists []. split; [done|by rewrite app_nil_r].
  - cbn [app]. rewrite (rd_lu _ _ c) by (by apply list_lookup_middle). cbn [mbind option_bind lstrip].
    destruct (isspace c).
    + replace (p ++ c :: s ++ [0]) with ((p ++ [c]) ++ s ++ [0]) by (by rewrite <- app_assoc).
      replace (length p + 1)%nat with (length (p ++ [c])) by (rewrite app_length; cbn; lia).
      destruct (IH (p ++ [c]) s) as (i & E & g & Hg & Hi); [cbn in Hf; lia|].
      exists i. split; [done|]. exists (c :: g). split; [cbn; by f_equal|]. rewrite Hi, <- app_assoc. done.
    + eexists. split; [done|]. exists []. split; [done|by rewrite app_nil_r].
Qed.

Lemma squeeze_loop_ok fuel out gap rest prev :
  (length rest < fuel)%nat -> nonul rest -> (prev = true -> gap <> []) ->
  exists buf' tail, squeeze_loop fuel (out ++ gap ++ rest ++ [0]) (length (out ++ gap)) (length out) prev
    = Some (out ++ squeeze prev rest ++ tail, length (out ++ squeeze prev rest)) /\ tail <> [] /\ buf' = tt.
Proof.
  revert out gap rest prev. induction fuel as [|fuel IH]; intros out gap rest prev Hf Hz Hg; [lia|].
  cbn [squeeze_loop]. rewrite app_assoc.
  destruct rest as [|c rest].
  - cbn [app squeeze]. rewrite (rd_lu _ _ 0) by (by apply list_lookup_middle). cbn [mbind option_bind].
    change (0 =? 0) with true. exists tt, (gap ++ [0]). rewrite app_nil_r, <- app_assoc. split; [done|]. split; [|done].
    intros E. by apply app_eq_nil in E as [_ E].
  - apply Forall_cons_1 in Hz as [Hc Hz]. cbn [length] in Hf.
    cbn [app]. rewrite (rd_lu _ _ c) by (by apply list_lookup_middle). cbn [mbind option_bind].
    destruct (Z.eqb_spec c 0) as [|_]; [done|]. cbn [squeeze]. destruct (isspace c) eqn:Es.
    + replace ((out ++ gap) ++ c :: rest ++ [0]) with (out ++ (gap ++ [c]) ++ rest ++ [0])
        by (rewrite <- !app_assoc; done).
      replace (length (out ++ gap) + 1)%nat with (length (out ++ gap ++ [c])) by (rewrite !app_length; cbn; lia).
      apply IH; [lia|done|]. intros _ E. by apply app_eq_nil in E as [_ E].
    + destruct prev.
      * (* a blank goes in front *)
        destruct gap as [|g gap]; [by destruct (Hg eq_refl)|].
        rewrite wr_Some by (rewrite !app_length; cbn; lia). cbn [mbind option_bind].
        assert (E1 : <[length out := 32]> ((out ++ g :: gap) ++ c :: rest ++ [0]) = (out ++ 32 :: gap) ++ c :: rest ++ [0]).
        { rewrite <- !app_assoc. cbn [app]. rewrite <- (Nat.add_0_r (length out)), insert_app_r. done. }
        rewrite E1.
        rewrite (rd_lu _ _ c).
        2:{ replace (length (out ++ g :: gap)) with (length (out ++ 32 :: gap)) by (rewrite !app_length; cbn; lia).
            by apply list_lookup_middle. }
        cbn [mbind option_bind].
        rewrite wr_Some by (rewrite !app_length; cbn; lia). cbn [mbind option_bind].
        (* position length out + 1 *)
        assert (E2 : exists gap', <[(length out + 1)%nat := c]> ((out ++ 32 :: gap) ++ c :: rest ++ [0]) =
                   (out ++ [32; c]) ++ gap' ++ rest ++ [0] /\ length gap' = length gap).
        { destruct gap as [|h gap].
          - exists []. split; [|done]. rewrite <- !app_assoc. cbn [app].
            rewrite insert_app_r. done.
          - exists (gap ++ [c]). split; [|rewrite app_length; cbn; lia].
            rewrite <- !app_assoc. cbn [app]. rewrite insert_app_r. cbn. done. }
        destruct E2 as (gap' & -> & Hgl).
        replace (length out + 1 + 1)%nat with (length (out ++ [32; c])) by (rewrite !app_length; cbn; lia).
        replace (length (out ++ g :: gap) + 1)%nat with (length ((out ++ [32; c]) ++ gap'))
          by (rewrite !app_length; cbn; lia).
        destruct (IH (out ++ [32; c]) gap' rest false) as (b & tail & E & Ht); [lia|done|done|].
        exists b, tail. rewrite E. split; [|done]. rewrite <- !app_assoc. done.
      * cbn [mbind option_bind].
        rewrite (rd_lu _ _ c) by (by apply list_lookup_middle). cbn [mbind option_bind].
        rewrite wr_Some by (rewrite !app_length; cbn; lia). cbn [mbind option_bind].
        assert (E2 : exists gap', <[length out := c]> ((out ++ gap) ++ c :: rest ++ [0]) =
                   (out ++ [c]) ++ gap' ++ rest ++ [0] /\ length gap' = length gap).
        { destruct gap as [|h gap].
          - exists []. split; [|done]. rewrite <- !app_assoc. cbn [app].
            rewrite <- (Nat.add_0_r (length out)), insert_app_r. done.
          - exists (gap ++ [c]). split; [|rewrite app_length; cbn; lia].
            rewrite <- !app_assoc. cbn [app]. rewrite <- (Nat.add_0_r (length out)), insert_app_r. cbn. done. }
        destruct E2 as (gap' & -> & Hgl).
        replace (length out + 1)%nat with (length (out ++ [c])) by (rewrite !app_length; cbn; lia).
        replace (length (out ++ gap) + 1)%nat with (length ((out ++ [c]) ++ gap'))
          by (rewrite !app_length; cbn; lia).
        destruct (IH (out ++ [c]) gap' rest false) as (b & tail & E & Ht); [lia|done|done|].
        exists b, tail. rewrite E. split; [|done]. rewrite <- !app_assoc. done.
Qed.

Lemma cstr_app s r : nonul s -> cstr (s ++ 0 :: r) = Some s.
Proof.
  intros H. induction H as [|c s Hc H IH]; [done|]. cbn [app cstr].
  destruct (Z.eqb_spec c 0); [done|]. by rewrite IH.
Qed.
Lemma squeeze_nonul prev s : nonul s -> nonul (squeeze prev s).
Proof.
  intros H. revert prev. induction H as [|c s Hc H IH]; intros prev; cbn; [constructor|].
  destruct (isspace c); [apply IH|]. apply Forall_app. split; [destruct prev; repeat constructor; lia|].
  constructor; [done|apply IH].
Qed.
Lemma flush_nonul K acc : nonul acc -> nonul (flush K acc).
Proof. unfold flush. destruct (K acc); [|done]. intros _. apply Forall_replicate. done. Qed.
Lemma go_nonul K acc s : nonul acc -> nonul s -> nonul (go K acc s).
Proof.
  intros Ha H. revert acc Ha. induction H as [|c s Hc H IH]; intros acc Ha; cbn [go]; [by apply flush_nonul|].
  destruct (isdelim c).
  - apply Forall_app. split; [by apply flush_nonul|]. constructor; [done|]. apply IH. constructor.
  - apply IH. apply Forall_app. split; [done|]. by constructor.
Qed.
Lemma lstrip_suffix s : exists g, s = g ++ lstrip s.
Proof. induction s as [|c s [g Hg]]; [by exists []|]. cbn. destruct (isspace c); [exists (c :: g); cbn; by f_equal|by exists []]. Qed.

Theorem normalize_ok s :
  nonul s -> normalize_type s = Some (squeeze false (lstrip (go (Kin keywords) [] s))).
Proof.
  intros Hs. unfold normalize_type. rewrite kws_loop_ok by apply keywords_ok. cbn [mbind option_bind].
  set (g := go (Kin keywords) [] s).
  assert (Hg : nonul g) by (apply go_nonul; [constructor|done]).
  destruct (skip_loop_ok (S (length (g ++ [0]))) [] g) as (i & E & gap & Hgap & Hi).
  { rewrite app_length. cbn. lia. }
  cbn [app length] in E. rewrite E. cbn [mbind option_bind]. cbn [app] in Hi.
  assert (Hls : nonul (lstrip g)) by (rewrite Hgap in Hg; by apply Forall_app in Hg as [_ Hg]).
  destruct (squeeze_loop_ok (S (length (g ++ [0]))) [] gap (lstrip g) false) as (b & tail & E2 & Ht & _);
    [|done|done|].
  { rewrite app_length. cbn. rewrite Hgap at 2. rewrite app_length. lia. }
  cbn [app length] in E2. rewrite app_assoc, <- Hgap, <- Hi in E2.
  rewrite E2. cbn [mbind option_bind].
  destruct tail as [|x tail]; [done|].
  rewrite wr_Some by (rewrite app_length; cbn; lia). cbn [mbind option_bind].
  rewrite <- (Nat.add_0_r (length (squeeze false (lstrip g)))), insert_app_r. cbn.
  apply cstr_app. by apply squeeze_nonul.
Qed.

(** *** Names made of words and blanks *)
Definition blank (c : Z) : Prop := c = 32 \/ c = 9.
Definition is_word (w : list Z) : Prop :=
  w <> [] /\ Forall (fun c => c <> 0 /\ isspace c = false) w /\
  (Forall (fun c => c <> 42) w \/ Forall (fun c => c = 42) w).
Definition flat (ps : list (list Z * list Z)) : list Z := concat (map (fun p => fst p ++ snd p) ps).

Lemma Kin_nil : Kin keywords [] = false.
Proof. vm_compute. reflexivity. Qed.
Lemma Kin_star w : w <> [] -> Forall (fun c => c = 42) w -> w ∉ keywords.
Proof.
  intros Hne H Hin. pose proof keywords_ok as Hk. rewrite Forall_forall in Hk. destruct (Hk w Hin) as [_ Hnd].
  destruct w as [|c w]; [done|]. apply Forall_cons_1 in H as [-> _]. apply Forall_cons_1 in Hnd as [H _]. done.
Qed.
Lemma blank_delim c : blank c -> isdelim c = true /\ isspace c = true.
Proof. intros [->| ->]; done. Qed.
Lemma go_blanks b x : Forall blank b -> go (Kin keywords) [] (b ++ x) = b ++ go (Kin keywords) [] x.
Proof.
  intros H. induction H as [|c b Hc H IH]; [done|]. cbn [app go].
  destruct (blank_delim c Hc) as [-> _]. unfold flush. rewrite Kin_nil. cbn [app]. by rewrite IH.
Qed.
Lemma go_word w x : is_word w -> (x = [] \/ exists c y, x = c :: y /\ blank c) ->
  go (Kin keywords) [] (w ++ x) =
    (if bool_decide (w ∈ keywords) then replicate (length w) 32 else w) ++ go (Kin keywords) [] x.
Proof.
  intros (Hne & Hw & Hs) Hx. destruct Hs as [Hs|Hs].
  - assert (Hn : nodelim w).
    { apply Forall_forall. intros c Hc. rewrite Forall_forall in Hw, Hs. destruct (Hw c Hc) as [H0 H1].
      specialize (Hs c Hc). unfold isdelim. unfold isspace in H1. lia. }
    rewrite go_nodelim by done. cbn [app].
    destruct Hx as [->|(c & y & -> & Hc)]; cbn [go].
    + unfold flush at 2. rewrite Kin_nil, app_nil_r. done.
    + destruct (blank_delim c Hc) as [-> _]. unfold flush at 2. rewrite Kin_nil. done.
  - rewrite bool_decide_eq_false_2 by (by apply Kin_star).
    clear Hne Hw Hx. induction Hs as [|c w -> H IH]; [done|]. cbn [app go].
    change (isdelim 42) with true. unfold flush. rewrite Kin_nil. cbn [app]. by rewrite IH.
Qed.

Lemma squeeze_blanks b x : Forall blank b -> squeeze true (b ++ x) = squeeze true x.
Proof. intros H. induction H as [|c b Hc H IH]; [done|]. cbn. destruct (blank_delim c Hc) as [_ ->]. done. Qed.
Lemma squeeze_blanks_ne prev b x : b <> [] -> Forall blank b -> squeeze prev (b ++ x) = squeeze true x.
Proof.
  intros Hne H. destruct b as [|c b]; [done|]. apply Forall_cons_1 in H as [Hc H]. cbn. destruct (blank_delim c Hc) as [_ ->]. by apply squeeze_blanks.
Qed.
Lemma squeeze_word prev w x : w <> [] -> Forall (fun c => c <> 0 /\ isspace c = false) w ->
  squeeze prev (w ++ x) = (if prev then [32] else []) ++ w ++ squeeze false x.
Proof.
  intros Hne H. revert prev. induction H as [|c w [_ Hc] H IH]; [done|]. intros prev. cbn. rewrite Hc.
  destruct w as [|d w]; [done|]. rewrite IH by done. cbn. done.
Qed.
Lemma lstrip_blanks b x : Forall blank b -> lstrip (b ++ x) = lstrip x.
Proof. intros H. induction H as [|c b Hc H IH]; [done|]. cbn. destruct (blank_delim c Hc) as [_ ->]. done. Qed.
Lemma lstrip_word w x : w <> [] -> Forall (fun c => c <> 0 /\ isspace c = false) w -> lstrip (w ++ x) = w ++ x.
Proof. intros Hne H. destruct H as [|c w [_ Hc] H]; [done|]. cbn. by rewrite Hc. Qed.
Lemma blanks_replicate n : Forall blank (replicate n 32).
Proof. apply Forall_replicate. by left. Qed.

Definition not_kw (w : list Z) : bool := negb (bool_decide (w ∈ keywords)).
Notation kept ps := (List.filter not_kw (map snd ps)).

Section words.
Context (tr : list Z) (Htr : Forall blank tr).

Lemma go_trail : go (Kin keywords) [] tr = tr.
Proof. rewrite <- (app_nil_r tr) at 1. rewrite go_blanks by done. cbn. unfold flush. by rewrite Kin_nil, app_nil_r. Qed.

Definition good (ps : list (list Z * list Z)) : Prop := Forall (fun p => Forall blank (fst p) /\ is_word (snd p)) ps.

Lemma flat_starts ps : Forall (fun p => Forall blank (fst p) /\ fst p <> []) ps ->
  flat ps ++ tr = [] \/ exists c y, flat ps ++ tr = c :: y /\ blank c.
Proof.
  intros H. destruct H as [|[b w] ps [Hb Hne] H].
  - cbn. destruct Htr as [|c y]; [by left|]. right. eauto.
  - right. cbn [fst] in *. destruct b as [|c b]; [done|]. apply Forall_cons_1 in Hb as [Hc Hb]. cbn. eauto.
Qed.

Lemma squeeze_go prev ps : good ps -> Forall (fun p => fst p <> []) ps ->
  squeeze prev (go (Kin keywords) [] (flat ps ++ tr)) = concat (map (fun w => 32 :: w) (kept ps)).
Proof.
  intros Hg. revert prev. induction Hg as [|[b w] ps [Hb Hw] Hg IH]; intros prev Hne.
  - cbn [flat map concat app]. rewrite go_trail. cbn [List.filter]. cbn.
    rewrite <- (app_nil_r tr). destruct (decide (tr = [])) as [->|Hn]; [done|].
    by rewrite squeeze_blanks_ne.
  - cbn [fst snd] in *. apply Forall_cons_1 in Hne as [Hb0 Hne]. cbn [fst] in Hb0.
    replace (flat ((b, w) :: ps) ++ tr) with (b ++ w ++ flat ps ++ tr) by (unfold flat; cbn; by rewrite <- !app_assoc).
    rewrite go_blanks by done. rewrite squeeze_blanks_ne by done.
    rewrite go_word; [|done|].
    2:{ apply flat_starts. apply Forall_forall. intros p Hp.
        unfold good in Hg. rewrite Forall_forall in Hg, Hne. split; [by apply Hg|by apply Hne]. }
    cbn [map List.filter snd]. unfold not_kw at 1. destruct (bool_decide (w ∈ keywords)); cbn [negb].
    + rewrite squeeze_blanks by apply blanks_replicate. by apply IH.
    + destruct Hw as (Hw0 & Hw & _). rewrite squeeze_word by done. cbn [map concat app].
      f_equal. f_equal. by apply IH.
Qed.

(** Words joined with single blanks. *)
Fixpoint join (ws : list (list Z)) : list Z :=
  match ws with [] => [] | [w] => w | w :: ws => w ++ 32 :: join ws end.
Lemma join_cons w ws : join (w :: ws) = w ++ concat (map (fun v => 32 :: v) ws).
Proof. revert w. induction ws as [|v ws IH]; intros w; [by rewrite app_nil_r|]. cbn [join]. cbn [map concat app]. f_equal. f_equal. apply IH. Qed.

Lemma words_ok ps : good ps -> Forall (fun p => fst p <> []) (tail ps) ->
  squeeze false (lstrip (go (Kin keywords) [] (flat ps ++ tr))) = join (kept ps).
Proof.
  intros Hg. induction Hg as [|[b w] ps [Hb Hw] Hg IH]; intros Hne.
  - cbn [flat map concat app]. rewrite go_trail. rewrite <- (app_nil_r tr), lstrip_blanks by done. done.
  - cbn [fst snd tail] in *.
    replace (flat ((b, w) :: ps) ++ tr) with (b ++ w ++ flat ps ++ tr) by (unfold flat; cbn; by rewrite <- !app_assoc).
    rewrite go_blanks, lstrip_blanks by done.
    rewrite go_word; [|done|].
    2:{ apply flat_starts. apply Forall_forall. intros p Hp.
        unfold good in Hg. rewrite Forall_forall in Hg, Hne. split; [by apply Hg|by apply Hne]. }
    cbn [map List.filter snd]. unfold not_kw at 1. destruct (bool_decide (w ∈ keywords)); cbn [negb].
    + rewrite lstrip_blanks by apply blanks_replicate. apply IH. destruct ps; [constructor|]. by apply Forall_cons_1 in Hne as [_ Hne].
    + destruct Hw as (Hw0 & Hw & _). rewrite lstrip_word, squeeze_word, join_cons by done. cbn [app]. f_equal.
      by apply squeeze_go.
Qed.
End words.

(** *** Idempotence *)
Definition plain (c : Z) : Prop := isspace c = true -> blank c.

Lemma squeeze_fixed K s : K [] = false ->
  Forall plain s ->
  (forall acc, go K acc s = acc ++ s -> go K acc (squeeze false s) = acc ++ squeeze false s) /\
  (forall acc, K acc = false -> go K [] s = s -> go K acc (squeeze true s) = acc ++ squeeze true s).
Proof.
  intros HK H. induction H as [|c s Hc H [IH1 IH2]].
  - split; intros acc Ha; [exact Ha|]. intros _. cbn. unfold flush. by rewrite Ha, app_nil_r.
  - assert (Hfl : forall acc r, length (flush K acc) = length acc -> flush K acc ++ r = acc ++ c :: s -> flush K acc = acc /\ r = c :: s).
    { intros acc r Hl E. by apply app_inj_1 in E. }
    assert (Hflush : forall acc, flush K acc = acc -> acc = [] \/ K acc = false \/ acc = replicate (length acc) 32).
    { intros acc E. unfold flush in E. destruct (K acc); [|by right; left]. right. by right. }
    assert (A : isspace c = true -> isdelim c = true).
    { intros Hs. by apply blank_delim, Hc. }
    assert (Hgen : forall acc, go K acc (c :: s) = acc ++ c :: s -> isspace c = false ->
              go K acc (c :: squeeze false s) = acc ++ c :: squeeze false s).
    { intros acc E Hs. cbn [go] in *. destruct (isdelim c).
      - apply Hfl in E as [E1 E2]; [|apply flush_length]. rewrite E1. f_equal. injection E2 as E2. f_equal. by apply IH1.
      - rewrite <- app_assoc with (l := acc) (m := [c]) (n := s) in E || idtac.
        specialize (IH1 (acc ++ [c])). rewrite <- !app_assoc in IH1. cbn [app] in IH1. by apply IH1. }
    split; intros acc.
    + intros E. cbn [squeeze]. destruct (isspace c) eqn:Hs; [|cbn [app]; by apply Hgen].
      cbn [go] in E. rewrite (A eq_refl) in E. apply Hfl in E as [E1 E2]; [|apply flush_length].
      injection E2 as E2.
      destruct (K acc) eqn:Ka; [|by apply IH2].
      (* acc is a keyword token equal to blanks: impossible unless it is empty *)
      unfold flush in E1. rewrite Ka in E1.
      destruct (squeeze true s) as [|d r] eqn:Esq.
      * cbn. unfold flush. by rewrite Ka, E1, app_nil_r.
      * destruct s as [|c' s']; [done|]. 
        assert (Hd : exists r', d :: r = 32 :: r').
        { clear -Esq. revert Esq. generalize (c' :: s'). induction l as [|x l IHl]; [done|]. cbn.
          destruct (isspace x); [done|]. cbn. intros [= <- <-]. eauto. }
        destruct Hd as [r' Hd]. injection Hd as -> ->.
        specialize (IH2 [] HK E2). cbn [app go] in IH2. change (isdelim 32) with true in IH2.
        cbn [go]. change (isdelim 32) with true. unfold flush in *. rewrite Ka, HK in *. cbn [app] in IH2.
        rewrite E1. f_equal. done.
    + intros Ka E. cbn [squeeze]. destruct (isspace c) eqn:Hs.
      * cbn [go] in E. rewrite (A eq_refl) in E. unfold flush in E. rewrite HK in E. injection E as E. by apply IH2.
      * cbn [app go]. change (isdelim 32) with true. unfold flush. rewrite Ka. f_equal. f_equal.
        pose proof (Hgen [] E eq_refl) as Hg'. cbn [app] in Hg'. exact Hg'.
Qed.

Lemma go_idem K acc s : nodelim acc -> K [] = false -> go K [] (go K acc s) = go K acc s.
Proof.
  intros Hn HK. rewrite go_go by done. apply go_ext. intros w. by destruct (K w).
Qed.

Lemma go_plain K acc s : Forall plain acc -> Forall plain s -> Forall plain (go K acc s).
Proof.
  intros Ha H. revert acc Ha. 
  assert (Hf : forall acc, Forall plain acc -> Forall plain (flush K acc)).
  { intros acc Ha. unfold flush. destruct (K acc); [|done]. apply Forall_replicate. intros _. by left. }
  induction H as [|c s Hc H IH]; intros acc Ha; cbn [go]; [by apply Hf|].
  destruct (isdelim c).
  - apply Forall_app. split; [by apply Hf|]. constructor; [done|]. apply IH. constructor.
  - apply IH. apply Forall_app. split; [done|]. by constructor.
Qed.
Lemma lstrip_plain s : Forall plain s -> Forall plain (lstrip s).
Proof. intros H. destruct (lstrip_suffix s) as [g Hg]. rewrite Hg in H. by apply Forall_app in H as [_ H]. Qed.
Lemma squeeze_plain prev s : Forall plain s -> Forall plain (squeeze prev s).
Proof.
  intros H. revert prev. induction H as [|c s Hc H IH]; intros prev; cbn; [constructor|].
  destruct (isspace c); [apply IH|]. apply Forall_app. split; [|constructor; [done|apply IH]].
  destruct prev; constructor; [|constructor]. intros _. by left.
Qed.

Lemma lstrip_fixed K s : Forall plain s -> K [] = false -> go K [] s = s -> go K [] (lstrip s) = lstrip s.
Proof.
  intros H HK. induction H as [|c s Hc H IH]; intros E; [done|]. cbn. destruct (isspace c) eqn:Hs; [|done].
  apply IH. cbn [go] in E. assert (isdelim c = true) as Hd by (by apply blank_delim, Hc).
  rewrite Hd in E. unfold flush in E. rewrite HK in E. by injection E as E.
Qed.

(** A squeezed string is squeezed. *)
Lemma squeeze_squeeze prev s : squeeze false (squeeze prev s) = squeeze prev s /\ squeeze true (squeeze prev s) =
  match squeeze prev s with [] => [] | c :: _ => if isspace c then squeeze prev s else 32 :: squeeze prev s end.
Proof.
  revert prev. induction s as [|c s IH]; intros prev; [done|]. cbn [squeeze].
  destruct (isspace c) eqn:Hs; [apply IH|].
  destruct (IH false) as [H1 _].
  destruct prev; cbn; rewrite Hs; cbn; rewrite H1; done.
Qed.
Lemma lstrip_squeeze s : lstrip (squeeze false (lstrip s)) = squeeze false (lstrip s).
Proof.
  induction s as [|c s IH]; [done|]. cbn [lstrip]. destruct (isspace c) eqn:Hs; [done|].
  cbn [squeeze]. rewrite Hs. cbn. by rewrite Hs.
Qed.

Lemma squeeze_length prev s : (length (squeeze prev s) <= length s + (if prev then 1 else 0))%nat.
Proof.
  revert prev. induction s as [|c s IH]; intros prev; cbn; [lia|].
  destruct (isspace c); [specialize (IH true); cbn in IH; destruct prev; lia|].
  specialize (IH false). cbn in IH. rewrite app_length. destruct prev; cbn; lia.
Qed.

Lemma back_loop_ok base sp :
  (exists q c, base = q ++ [c] /\ isspace c = false) -> Forall (fun c => isspace c = true) sp ->
  forall rest, back_loop (base ++ sp ++ rest) (length base + length sp) = Some (length base).
Proof.
  intros Hb. induction sp as [|s sp IH] using rev_ind; intros Hsp rest.
  - destruct Hb as (q & c & -> & Hc). cbn [app length]. rewrite Nat.add_0_r, app_length.
    cbn [length]. rewrite Nat.add_1_r. cbn [back_loop].
    rewrite <- app_assoc. cbn [app]. rewrite (rd_lu _ _ c) by (by apply list_lookup_middle). cbn [mbind option_bind].
    by rewrite Hc.
  - apply Forall_app in Hsp as [Hsp Hs]. apply Forall_cons_1 in Hs as [Hs _].
    rewrite app_length. cbn [length].
    replace (length base + (length sp + 1))%nat with (S (length base + length sp)) by lia. cbn [back_loop].
    rewrite <- !app_assoc. cbn [app].
    rewrite (rd_lu (base ++ sp ++ s :: rest) _ s) by (rewrite app_assoc; apply list_lookup_middle; by rewrite app_length).
    cbn [mbind option_bind]. rewrite Hs. by apply IH.
Qed.
Lemma back_loop_ub sp : Forall (fun c => isspace c = true) sp -> forall rest, back_loop (sp ++ rest) (length sp) = None.
Proof.
  induction sp as [|s sp IH] using rev_ind; intros Hsp rest; [done|].
  apply Forall_app in Hsp as [Hsp Hs]. apply Forall_cons_1 in Hs as [Hs _].
  rewrite app_length. cbn [length]. rewrite Nat.add_1_r. cbn [back_loop]. rewrite <- app_assoc. cbn [app].
  rewrite (rd_lu _ _ s) by (by apply list_lookup_middle). cbn [mbind option_bind]. rewrite Hs. by apply IH.
Qed.

(** What [squeeze] produces: blanks only singly, none at the end. *)
Definition squeeze_shape (prev : bool) (r : list Z) : Prop :=
  Forall (fun c => isspace c = true -> c = 32) r /\ (forall c q, r = q ++ [c] -> isspace c = false) /\
  (forall p c d q, r = p ++ c :: d :: q -> isspace c = true -> isspace d = true -> False).
Lemma squeeze_shape_ok prev s : squeeze_shape prev (squeeze prev s).
Proof.
  revert prev. induction s as [|c s IH]; intros prev; cbn [squeeze].
  { split; [constructor|]. split; [intros c [|? ?]; discriminate|intros [|? ?]; discriminate]. }
  destruct (isspace c) eqn:Hs; [apply IH|]. specialize (IH false). destruct IH as (H1 & H2 & H3).
  set (r := squeeze false s) in *.
  assert (Ha : squeeze_shape false (c :: r)).
  { split; [constructor; [congruence|done]|]. split.
    - intros d q E. destruct q as [|x q]; [by injection E as -> _|]. injection E as _ E. by apply H2 in E.
    - intros p x d q E. destruct p as [|y p]; [injection E as <- _; congruence|]. injection E as _ E. by apply (H3 p x d q). }
  destruct prev; [|exact Ha]. cbn [app]. destruct Ha as (A1 & A2 & A3). split; [by constructor|]. split.
  - intros d q E. destruct q as [|x q]; [done|]. injection E as _ E. by apply A2 in E.
  - intros p x d q E. destruct p as [|y p]; [injection E as _ <- _; congruence|]. injection E as _ E. by apply (A3 p x d q).
Qed.
