(** Loading text into char arrays (src/mr_load.c:476-553). *)
From Verif Require Import Base Load LoadSpec LoadInv.
Local Open Scope Z_scope.

Definition text_of (nd : node) (t : list Z) : Prop := n_val nd = VSub t \/ n_val nd = VStr (Some t).

Lemma char_at_hit b t l a :
  b.1 = a.1 -> b.2 <= a.2 < b.2 + Z.of_nat (length t) ->
  char_at (Store b (WText t) :: l) a = t !! Z.to_nat (a.2 - b.2).
Proof.
  intros H1 H2. cbn. destruct (Nat.eqb_spec b.1 a.1); [|done].
  destruct (Z.leb_spec b.2 a.2); [|lia]. destruct (Z.ltb_spec a.2 (b.2 + Z.of_nat (length t))); [done|lia].
Qed.
Lemma char_at_miss b t l a :
  ~ b.2 <= a.2 < b.2 + Z.of_nat (length t) -> char_at (Store b (WText t) :: l) a = char_at l a.
Proof.
  intros H2. cbn. destruct (Nat.eqb_spec b.1 a.1); [|done].
  destruct (Z.leb_spec b.2 a.2); [|done]. destruct (Z.ltb_spec a.2 (b.2 + Z.of_nat (length t))); [lia|done].
Qed.

Definition in_range (a : addr) (n : Z) (x : store) : Prop :=
  (st_at x).1 = a.1 /\ a.2 <= (st_at x).2 /\ (st_at x).2 + width (st_what x) <= a.2 + n.

Lemma holds_get' s a m p :
  blocks s !! a.1 = Some (Some m) -> 0 <= a.2 -> a.2 + 8 <= m ->
  match filter (fun x => is_true (meets a x)) (log s) with
  | [] => p = Null | x :: _ => x = Store a (WPtr p) end -> get_ptr s a = Some p.
Proof.
  intros Hm H1 H2. rewrite (get_ptr_peek _ _ m) by done. unfold peek.
  destruct (filter _ (log s)) as [|x l]; [by intros ->|]. intros ->. by rewrite Z.eqb_refl.
Qed.

Section text.
Context (alloc : nat -> bool).

Lemma char_array_ok nd a ty s m :
  blocks s !! a.1 = Some (Some m) -> 0 <= a.2 -> 0 <= s_size ty -> a.2 + s_size ty <= m ->
  exists ok s' new, load_char_array alloc nd a ty None s = Some (ok, None, s') /\
    blocks s' = blocks s /\ ra s' = ra s /\ log s' = new ++ log s /\ Forall (in_range a (s_size ty)) new /\
    (ok = true -> exists t, text_of nd t) /\
    forall t, text_of nd t -> ok = true /\
      (forall i c, Z.of_nat i < s_size ty -> t !! i = Some c -> char_at (log s') (shift a (Z.of_nat i)) = Some c) /\
      (Z.of_nat (length t) < s_size ty -> char_at (log s') (shift a (Z.of_nat (length t))) = Some 0).
Proof.
  intros Hm Ha Hs Hr. unfold load_char_array.
  assert (H1 : exists s1 n1, (if 0 <? s_size ty then put s a (WText [0]) else Some s) = Some s1 /\
    blocks s1 = blocks s /\ ra s1 = ra s /\ log s1 = n1 ++ log s /\ Forall (in_range a (s_size ty)) n1).
  { destruct (Z.ltb_spec 0 (s_size ty)).
    - rewrite (put_ok _ _ _ m); [|done|done|cbn; lia]. eexists _, [_]. split; [reflexivity|].
      split; [done|]. split; [done|]. split; [reflexivity|]. constructor; [|done].
      split; [done|]. cbn. lia.
    - exists s, []. done. }
  destruct H1 as (s1 & n1 & -> & Hb1 & Hr1 & Hl1 & HF1). cbn [mbind option_bind].
  assert (HT : forall t, exists s' new, get_char_array alloc nd a ty None t s1 = Some (true, None, s') /\
    blocks s' = blocks s /\ ra s' = ra s /\ log s' = new ++ log s /\ Forall (in_range a (s_size ty)) new /\
      (forall i c, Z.of_nat i < s_size ty -> t !! i = Some c -> char_at (log s') (shift a (Z.of_nat i)) = Some c) /\
      (Z.of_nat (length t) < s_size ty -> char_at (log s') (shift a (Z.of_nat (length t))) = Some 0)).
  { intros t. unfold get_char_array.
    set (u := if Z.of_nat (length t) >? s_size ty then take (Z.to_nat (s_size ty)) t else t).
    assert (Hu : Z.of_nat (length u) = Z.min (Z.of_nat (length t)) (s_size ty)).
    { unfold u. destruct (Z.gtb_spec (Z.of_nat (length t)) (s_size ty)); [rewrite take_length|]; lia. }
    assert (Hui : forall i c, Z.of_nat i < s_size ty -> t !! i = Some c -> u !! i = Some c).
    { intros i c Hi Hc. unfold u. destruct (_ >? _); [|done]. rewrite lookup_take; [done|lia]. }
    clearbody u. rewrite (put_ok _ _ _ m); [|by rewrite Hb1|done|cbn; lia]. cbn [mbind option_bind].
    destruct (Z.ltb_spec (Z.of_nat (length u)) (s_size ty)) as [Hlt|Hge].
    - rewrite (put_ok _ _ _ m); [|by cbn; rewrite Hb1|cbn; lia|cbn; lia]. cbn [mbind option_bind].
      eexists _, (_ :: _ :: n1). split; [reflexivity|]. split; [done|]. split; [done|].
      split; [cbn; by rewrite Hl1|]. split.
      { repeat constructor; cbn; try lia. done. }
      cbn [log]. split.
      + intros i c Hi Hc. specialize (Hui i c Hi Hc). pose proof (lookup_lt_Some _ _ _ Hui).
        rewrite char_at_miss by (cbn; lia). rewrite char_at_hit; [|done|cbn; lia].
        cbn. replace (Z.to_nat (a.2 + Z.of_nat i - a.2)) with i by lia. done.
      + intros Hlt'. replace (length t) with (length u) by lia. rewrite char_at_hit; [|done|cbn; lia].
        rewrite Z.sub_diag. done.
    - eexists _, (_ :: n1). split; [reflexivity|]. split; [done|]. split; [done|].
      split; [cbn; by rewrite Hl1|]. split.
      { constructor; [|done]. split; [done|]. cbn. lia. }
      cbn [log]. split; [|lia].
      intros i c Hi Hc. specialize (Hui i c Hi Hc). pose proof (lookup_lt_Some _ _ _ Hui).
      rewrite char_at_hit; [|done|cbn; lia].
      cbn. replace (Z.to_nat (a.2 + Z.of_nat i - a.2)) with i by lia. done. }
  assert (HN : (forall t, ~ text_of nd t) -> exists ok s' new, Some (false, @None (option N * option nat), s1) = Some (ok, None, s') /\
    blocks s' = blocks s /\ ra s' = ra s /\ log s' = new ++ log s /\ Forall (in_range a (s_size ty)) new /\
    (ok = true -> exists t, text_of nd t) /\
    forall t, text_of nd t -> ok = true /\
      (forall i c, Z.of_nat i < s_size ty -> t !! i = Some c -> char_at (log s') (shift a (Z.of_nat i)) = Some c) /\
      (Z.of_nat (length t) < s_size ty -> char_at (log s') (shift a (Z.of_nat (length t))) = Some 0)).
  { intros Hno. exists false, s1, n1. split; [done|]. split; [done|]. split; [done|]. split; [done|]. split; [done|]. split; [done|].
    intros t Ht. by apply Hno in Ht. }
  destruct (n_val nd) as [z|t|[t|]|] eqn:Ev.
  - apply HN. intros t [|]; congruence.
  - destruct (HT t) as (s' & new & -> & R1 & R2 & R3 & R4 & R5). exists true, s', new.
    split; [done|]. split; [done|]. split; [done|]. split; [done|]. split; [done|].
    split; [exists t; by left|]. intros t' Ht'. assert (t' = t) as -> by (destruct Ht'; congruence). done.
  - destruct (HT t) as (s' & new & -> & R1 & R2 & R3 & R4 & R5). exists true, s', new.
    split; [done|]. split; [done|]. split; [done|]. split; [done|]. split; [done|].
    split; [exists t; by right|]. intros t' Ht'. assert (t' = t) as -> by (destruct Ht'; congruence). done.
  - apply HN. intros t [|]; congruence.
  - apply HN. intros t [|]; congruence.
Qed.

(** Text behind a pointer: block [S b] holds one char array; [cell] points to it. *)
Lemma char_pointer_ok nd b cell ty s m t :
  blocks s !! S b = Some (Some (s_size ty)) -> 0 <= s_size ty -> text_of nd t ->
  cell.1 <> S b -> blocks s !! cell.1 = Some (Some m) -> 0 <= cell.2 -> cell.2 + 8 <= m ->
  get_ptr s cell = Some (To (S b, 0)) ->
  exists ok s', load_char_array alloc nd (S b, 0) ty (Some cell) s = Some (ok, None, s') /\
    (ok = false -> blocks s' = <[S b := None]> (blocks s) /\ get_ptr s' cell = Some Null) /\
    (ok = false <-> s_size ty <= Z.of_nat (length t) /\ alloc (length (blocks s)) = false) /\
    (ok = true -> exists b' m', get_ptr s' cell = Some (To (b', 0)) /\ blocks s' !! b' = Some (Some m') /\
       (b' = S b \/ blocks s' !! S b = Some None) /\
       (forall i c, t !! i = Some c -> char_at (log s') (b', Z.of_nat i) = Some c) /\
       char_at (log s') (b', Z.of_nat (length t)) = Some 0 /\ Z.of_nat (length t) < m').
Proof.
  intros Hb Hs Ht Hcb Hm Hc1 Hc2 Hg. unfold load_char_array.
  assert (H1 : exists s1, (if 0 <? s_size ty then put s (S b, 0) (WText [0]) else Some s) = Some s1 /\
    blocks s1 = blocks s /\ get_ptr s1 cell = Some (To (S b, 0))).
  { destruct (Z.ltb_spec 0 (s_size ty)).
    - rewrite (put_ok _ _ _ (s_size ty)); [|done|done|cbn; lia]. eexists. split; [reflexivity|]. split; [done|].
      unfold get_ptr in *. cbn [blocks log]. rewrite filter_cons, decide_False; [done|].
      unfold is_true, meets. cbn. destruct (Nat.eqb_spec cell.1 (S b)); done.
    - exists s. done. }
  destruct H1 as (s1 & -> & Hb1 & Hg1). cbn [mbind option_bind].
  assert (HT : exists ok s', get_char_array alloc nd (S b, 0) ty (Some cell) t s1 = Some (ok, None, s') /\
    (ok = false -> blocks s' = <[S b := None]> (blocks s) /\ get_ptr s' cell = Some Null) /\
    (ok = false <-> s_size ty <= Z.of_nat (length t) /\ alloc (length (blocks s)) = false) /\
    (ok = true -> exists b' m', get_ptr s' cell = Some (To (b', 0)) /\ blocks s' !! b' = Some (Some m') /\
       (b' = S b \/ blocks s' !! S b = Some None) /\
       (forall i c, t !! i = Some c -> char_at (log s') (b', Z.of_nat i) = Some c) /\
       char_at (log s') (b', Z.of_nat (length t)) = Some 0 /\ Z.of_nat (length t) < m')).
  2: { destruct Ht as [-> | ->]; exact HT. }
  unfold get_char_array.
  assert (Hcl : (cell.1 < length (blocks s))%nat) by (by eapply lookup_lt_Some).
  assert (Hbl : (S b < length (blocks s))%nat) by (by eapply lookup_lt_Some).
  assert (Hsmall : (0 <? 1) = true) by done.
  destruct (Z.leb_spec (s_size ty) (Z.of_nat (length t))) as [Hle|Hgt].
  - unfold release. rewrite Hb1, Hb. cbn [mbind option_bind]. unfold calloc. cbn [blocks].
    rewrite insert_length. destruct (alloc (length (blocks s))) eqn:Eal.
    + rewrite (put_ok _ _ _ m); [|cbn; rewrite lookup_app_l by (rewrite insert_length; lia); by rewrite list_lookup_insert_ne by done|done|cbn; lia].
      cbn [mbind option_bind set_entry].
      assert (Hn : (<[S b:=None]> (blocks s) ++ [Some (Z.of_nat (length t) + 1)]) !! length (blocks s) = Some (Some (Z.of_nat (length t) + 1))).
      { rewrite lookup_app_r by (rewrite insert_length; lia). by rewrite insert_length, Nat.sub_diag. }
      rewrite (put_ok _ _ _ (Z.of_nat (length t) + 1)); [|exact Hn|done|cbn; lia]. cbn [mbind option_bind].
      rewrite (put_ok _ _ _ (Z.of_nat (length t) + 1)); [|exact Hn|cbn; lia|cbn; lia]. cbn [mbind option_bind].
      eexists true, _. split; [reflexivity|]. split; [done|]. split; [split; [done|intros [_ ?]; done]|].
      intros _. exists (length (blocks s)), (Z.of_nat (length t) + 1). cbn [blocks log set_entry]. split.
      { apply (holds_get' _ _ m); [cbn; rewrite lookup_app_l by (rewrite insert_length; lia); by rewrite list_lookup_insert_ne by done|done|done|].
        cbn [log]. rewrite filter_cons, decide_False; [|unfold is_true, meets; cbn; destruct (Nat.eqb_spec cell.1 (length (blocks s))); [lia|by rewrite ?andb_false_r]].
        rewrite filter_cons, decide_False; [|unfold is_true, meets; cbn; destruct (Nat.eqb_spec cell.1 (length (blocks s))); [lia|by rewrite ?andb_false_r]].
        rewrite filter_cons, decide_True; [done|]. apply meets_self. }
      split; [exact Hn|]. split; [right; rewrite lookup_app_l by (rewrite insert_length; lia); by rewrite list_lookup_insert|].
      split; [|split; [|lia]].
      * intros i c Hc. pose proof (lookup_lt_Some _ _ _ Hc). rewrite char_at_miss by (cbn; lia).
        rewrite char_at_hit; [|done|cbn; lia]. cbn. rewrite Z.sub_0_r, Nat2Z.id. done.
      * rewrite char_at_hit; [|done|cbn; lia]. cbn. rewrite Z.sub_diag. done.
    + rewrite (put_ok _ _ _ m); [|cbn; by rewrite list_lookup_insert_ne by done|done|cbn; lia].
      cbn [mbind option_bind set_entry]. eexists false, _. split; [reflexivity|]. split.
      { intros _. split; [done|]. apply (holds_get' _ _ m); [cbn; by rewrite list_lookup_insert_ne by done|done|done|].
        cbn [log set_entry]. rewrite filter_cons, decide_True; [done|]. apply meets_self. }
      split; [split; done|done].
  - rewrite (put_ok _ _ _ (s_size ty)); [|by cbn; rewrite Hb1|done|cbn; lia]. cbn [mbind option_bind].
    rewrite (put_ok _ _ _ (s_size ty)); [|by cbn; rewrite Hb1|cbn; lia|cbn; lia]. cbn [mbind option_bind].
    eexists true, _. split; [reflexivity|]. split; [done|]. split; [split; [done|lia]|].
    intros _. exists (S b), (s_size ty). cbn [blocks log set_entry]. split; [|split; [by rewrite Hb1|]].
    { unfold get_ptr in *. cbn [blocks log].
      rewrite filter_cons, decide_False; [|unfold is_true, meets; cbn; destruct (Nat.eqb_spec cell.1 (S b)); [done|by rewrite ?andb_false_r]].
      rewrite filter_cons, decide_False; [done|unfold is_true, meets; cbn; destruct (Nat.eqb_spec cell.1 (S b)); [done|by rewrite ?andb_false_r]]. }
    split; [by left|]. split; [|split; [|lia]].
    + intros i c Hc. pose proof (lookup_lt_Some _ _ _ Hc). rewrite char_at_miss by (cbn; lia).
      rewrite char_at_hit; [|done|cbn; lia]. cbn. rewrite Z.sub_0_r, Nat2Z.id. done.
    + rewrite char_at_hit; [|done|cbn; lia]. cbn. rewrite Z.sub_diag. done.
Qed.
End text.
