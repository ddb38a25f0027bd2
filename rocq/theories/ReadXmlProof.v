From Verif Require Import Base ReadXml.
Local Open Scope Z_scope.

(** *** The counting alone *)
Record ast := Ast { op : Z; tc : Z; pc : Z; cnt : Z }.
(** Result of one character: refuse, accept, go on. *)
Inductive res := No | Yes | On (a : ast).
Definition next (a : ast) (c : Z) : res :=
  if c =? 0 then No
  else if (op a =? 0) && negb ((c =? 60) || isspace c) then No
  else
    let o := if c =? 60 then op a + 2 else op a in
    let t := if (pc a =? 47) && (c =? 62) then -2 else tc a in
    let t := if (pc a =? 63) && (c =? 62) then -2 else t in
    let t := if (pc a =? 60) && (c =? 47) then -3 else t in
    let c' := if isspace c then pc a else c in
    if c =? 62 then
      if o + t <? 0 then No
      else if o + t =? 0 then
        if cnt a - 1 =? 0 then Yes else On (Ast (o + t) (-1) c' (cnt a - 1))
      else On (Ast (o + t) (-1) c' (cnt a))
    else On (Ast o t c' (cnt a)).
Fixpoint runa (a : ast) (s : list Z) : option nat :=
  match s with
  | [] => None
  | c :: s => match next a c with
              | No => None
              | Yes => Some 1%nat
              | On a => match runa a s with Some n => Some (S n) | None => None end
              end
  end.

(** *** The buffer *)
Section buf.
Context (junk : nat -> list Z) (Hjunk : forall n, length (junk n) = n).

Definition pow_size (m : Z) : Prop := exists k : nat, m = 2048 * 2 ^ Z.of_nat k.
Definition inv (v : vars) (dn : list Z) (a : ast) : Prop :=
  (exists g, str v = dn ++ g) /\ Z.of_nat (length (str v)) = max_size v /\
  size v = Z.of_nat (length dn) - 1 /\ Z.of_nat (length dn) < max_size v /\
  pow_size (max_size v) /\ max_size v <= 1073741824 /\
  op a = opened_tags v /\ tc a = tags_to_close v /\ pc a = c_ v /\ cnt a = count v /\
  0 <= op a <= 2 * Z.of_nat (length dn) /\ -3 <= tc a <= -1.

Lemma init_inv : inv init [] (Ast 0 (-1) 0 2).
Proof.
  unfold inv, init; cbn -[replicate]. split; [by exists (replicate 2048 0)|]. rewrite replicate_length.
  split; [lia|]. split; [lia|]. split; [lia|]. split; [by exists 0%nat|]. repeat split; lia.
Qed.

Lemma add_int_ok x y : - int_max - 1 <= x + y <= int_max -> add_int x y = Some (x + y).
Proof.
  intros H. unfold add_int.
  destruct ((- int_max - 1 <=? x + y) && (x + y <=? int_max)) eqn:E; [done|]. exfalso. unfold int_max in *. lia.
Qed.

Lemma pow_half m : pow_size m -> m < 1073741824 -> pow_size (m * 2) /\ m * 2 <= 1073741824.
Proof.
  intros [k ->] H.
  assert (Hk : (k <= 18)%nat).
  { destruct (decide (k <= 18)%nat) as [|Hk]; [done|]. exfalso.
    assert (2 ^ 19 <= 2 ^ Z.of_nat k) by (apply Z.pow_le_mono_r; lia). lia. }
  split.
  - exists (S k). rewrite Nat2Z.inj_succ, Z.pow_succ_r by lia. lia.
  - assert (2 ^ Z.of_nat k <= 2 ^ 18) by (apply Z.pow_le_mono_r; lia). lia.
Qed.

Lemma store_ok v dn a c :
  inv v dn a -> Z.of_nat (length dn) + 1 < 1073741824 ->
  exists v', store junk v c = Some v' /\
    (exists g, str v' = (dn ++ [c]) ++ g) /\ Z.of_nat (length (str v')) = max_size v' /\
    size v' = Z.of_nat (length dn) /\ Z.of_nat (length dn) + 1 < max_size v' /\
    pow_size (max_size v') /\ max_size v' <= 1073741824 /\
    opened_tags v' = opened_tags v /\ tags_to_close v' = tags_to_close v /\ c_ v' = c_ v /\ count v' = count v.
Proof.
  intros ((g & Hg) & Hl & Hs & Hlt & Hp & Hm & _) Hd. unfold store.
  rewrite add_int_ok by (unfold int_max; lia). cbn [mbind option_bind]. rewrite Hs.
  replace (Z.of_nat (length dn) - 1 + 1) with (Z.of_nat (length dn)) by lia. rewrite Nat2Z.id.
  rewrite wr_Some by lia. cbn [mbind option_bind].
  destruct g as [|x g]; [rewrite Hg, app_nil_r in Hl; lia|].
  assert (Hi : <[length dn := c]> (str v) = (dn ++ [c]) ++ g).
  { rewrite Hg, insert_app_r_alt by lia. rewrite Nat.sub_diag. cbn. by rewrite <- app_assoc. }
  rewrite Hi. destruct (Z.eqb_spec (Z.of_nat (length dn)) (max_size v - 1)) as [He|He].
  - assert (Hlt2 : max_size v < 1073741824) by lia. destruct (pow_half _ Hp Hlt2) as [Hp2 Hm2].
    replace (max_size v * 2 <=? int_max) with true by (unfold int_max; lia).
    eexists. split; [reflexivity|]. cbn [str size max_size opened_tags tags_to_close c_ count].
    assert (HL : Z.of_nat (length ((dn ++ [c]) ++ g)) = max_size v).
    { rewrite <- Hi, insert_length. done. }
    split; [exists (g ++ junk (length ((dn ++ [c]) ++ g))); by rewrite <- !app_assoc|].
    split; [rewrite app_length, Hjunk; lia|]. split; [lia|]. split; [lia|]. done.
  - eexists. split; [reflexivity|]. cbn [str size max_size opened_tags tags_to_close c_ count].
    split; [by exists g|]. split; [rewrite <- Hi, insert_length; lia|]. split; [lia|]. split; [lia|]. done.
Qed.

(** What is in the buffer at the end. *)
Definition holds (buf text : list Z) : Prop := exists g, buf = text ++ 0 :: g.

Lemma loop_ok s : forall v dn a,
  inv v dn a -> Z.of_nat (length dn) + Z.of_nat (length s) < 1073741824 ->
  match runa a s with
  | None => loop junk v s = Some Refused
  | Some n => exists buf, loop junk v s = Some (Doc buf) /\ holds buf (dn ++ take n s)
  end.
Proof.
  induction s as [|c s IH]; intros v dn a Hi Hlen; [done|]. cbn [length] in Hlen.
  cbn [runa loop]. unfold next. cbv zeta.
  destruct (Z.eqb_spec c 0) as [->|Hc0]; [done|].
  destruct (store_ok v dn a c Hi ltac:(lia)) as (v' & -> & (g & Hg) & Hl & Hs & Hlt & Hp & Hm & E1 & E2 & E3 & E4).
  cbn [mbind option_bind]. destruct Hi as (_ & _ & _ & _ & _ & _ & Ho & Ht & Hpc & Hc & Hr & Htr).
  rewrite E1, E2, E3, E4, <- Ho, <- Ht, <- Hpc, <- Hc.
  destruct ((op a =? 0) && negb ((c =? 60) || isspace c)); [done|].
  set (o := if c =? 60 then op a + 2 else op a).
  assert (Eo : (if c =? 60 then add_int (op a) 2 else Some (op a)) = Some o).
  { unfold o. destruct (c =? 60); [|done]. apply add_int_ok. unfold int_max. lia. }
  rewrite Eo. cbn [mbind option_bind].
  assert (Ro : 0 <= o <= 2 * Z.of_nat (length dn) + 2) by (unfold o; destruct (c =? 60); lia).
  set (t := if (pc a =? 60) && (c =? 47) then -3 else
            (if (pc a =? 63) && (c =? 62) then -2 else (if (pc a =? 47) && (c =? 62) then -2 else tc a))).
  assert (Rt : -3 <= t <= -1).
  { unfold t. repeat match goal with |- context [if ?b then _ else _] => destruct b end; lia. }
  set (c' := if isspace c then pc a else c).
  assert (Hgo : forall o' t' n', 0 <= o' <= 2 * Z.of_nat (length dn) + 2 -> -3 <= t' <= -1 ->
    match (match runa (Ast o' t' c' n') s with Some n => Some (S n) | None => None end) with
    | None => loop junk (Vars (str v') (size v') (max_size v') c' o' t' n') s = Some Refused
    | Some n => exists buf, loop junk (Vars (str v') (size v') (max_size v') c' o' t' n') s = Some (Doc buf) /\
                  holds buf (dn ++ take n (c :: s))
    end).
  { intros o' t' n' R1 R2.
    specialize (IH (Vars (str v') (size v') (max_size v') c' o' t' n') (dn ++ [c]) (Ast o' t' c' n')).
    rewrite app_length in IH. cbn [length] in IH. destruct (runa (Ast o' t' c' n') s) as [n|].
    - destruct IH as (buf & E & Hb); [|lia|].
      + unfold inv. cbn [str size max_size opened_tags tags_to_close c_ count op tc pc cnt]. rewrite app_length. cbn [length].
        split; [by exists g|]. split; [exact Hl|]. split; [lia|]. split; [lia|]. split; [exact Hp|]. split; [exact Hm|].
        do 4 (split; [reflexivity|]). split; lia.
      + exists buf. split; [done|]. cbn [take]. rewrite <- app_assoc in Hb. done.
    - apply IH; [|lia]. unfold inv. cbn [str size max_size opened_tags tags_to_close c_ count op tc pc cnt].
      rewrite app_length. cbn [length]. split; [by exists g|]. split; [exact Hl|]. split; [lia|]. split; [lia|]. split; [exact Hp|]. split; [exact Hm|].
        do 4 (split; [reflexivity|]). split; lia. }
  destruct (c =? 62); [|apply Hgo; lia].
  rewrite (add_int_ok o t) by (unfold int_max; lia). cbn [mbind option_bind].
  destruct (Z.ltb_spec (o + t) 0); [done|]. destruct (Z.eqb_spec (o + t) 0) as [E|E]; [|apply Hgo; lia].
  destruct (cnt a - 1 =? 0); [|apply Hgo; lia].
  rewrite (add_int_ok (size v') 1) by (unfold int_max; lia). cbn [mbind option_bind].
  rewrite wr_Some by lia. cbn [mbind option_bind]. eexists. split; [reflexivity|].
  rewrite Hs. replace (Z.to_nat (Z.of_nat (length dn) + 1)) with (length (dn ++ [c])) by (rewrite app_length; cbn; lia).
  rewrite Hg in Hl. destruct g as [|x g]; [rewrite app_nil_r, app_length in Hl; cbn in Hl; lia|].
  exists g. rewrite Hg, insert_app_r_alt by lia. rewrite Nat.sub_diag. cbn. rewrite firstn_O. done.
Qed.
End buf.

(** *** Properties of the counting *)
Lemma runa_spec s : forall a n, runa a s = Some n ->
  (n <= length s)%nat /\ Forall (fun c => c <> 0) (take n s) /\ (exists p, take n s = p ++ [62]) /\
  (forall s', runa a (take n s ++ s') = Some n) /\ (forall m, (m < n)%nat -> runa a (take m s) = None).
Proof.
  induction s as [|c s IH]; intros a n H; [done|]. cbn [runa] in H.
  destruct (next a c) as [| |a'] eqn:En; [done|..].
  - injection H as <-. cbn [take length].
    assert (Hc : c = 62 /\ c <> 0).
    { unfold next in En. destruct (Z.eqb_spec c 0); [done|].
      destruct ((op a =? 0) && negb ((c =? 60) || isspace c)); [done|]. destruct (Z.eqb_spec c 62); [done|done]. }
    destruct Hc as [-> Hc].
    split; [lia|]. split; [by repeat constructor|]. split; [by exists []|].
    split; [intros s'; cbn [app runa]; by rewrite En|]. intros m Hm. assert (m = O) as -> by lia. done.
  - destruct (runa a' s) as [n'|] eqn:E; [|done]. injection H as <-.
    destruct (IH a' n' E) as (H1 & H2 & (p & H3) & H4 & H5). cbn [take length].
    assert (c <> 0) by (unfold next in En; by destruct (Z.eqb_spec c 0)).
    split; [lia|]. split; [by constructor|]. split; [exists (c :: p); by rewrite H3|].
    split; [intros s'; cbn [app runa]; by rewrite En, H4|].
    intros m Hm. destruct m as [|m]; [done|]. cbn [take runa]. rewrite En, H5 by lia. done.
Qed.

(** *** Documents *)
(** Text without markup. *)
Definition plain (t : list Z) : Prop := Forall (fun c => c <> 0 /\ c <> 60 /\ c <> 62) t.
(** The last and the first character that are not white space. *)
Fixpoint lastns (d : Z) (t : list Z) : Z := match t with [] => d | c :: t => lastns (if isspace c then d else c) t end.
Fixpoint firstns (t : list Z) : option Z := match t with [] => None | c :: t => if isspace c then firstns t else Some c end.

(** [Markup t]: from "<?" to "?>"; [Empty t w]: "<t/w>"; [Elem t kids t']:
    "<t>", the content, "</t'>". *)
Inductive node := Text (t : list Z) | Markup (t : list Z) | Empty (t w : list Z) | Elem (t : list Z) (kids : list node) (t' : list Z).
Fixpoint render (x : node) : list Z :=
  match x with
  | Text t => t
  | Markup t => [60; 63] ++ t ++ [63; 62]
  | Empty t w => [60] ++ t ++ [47] ++ w ++ [62]
  | Elem t kids t' => [60] ++ t ++ [62] ++ concat (map render kids) ++ [60; 47] ++ t' ++ [62]
  end.
Definition ends_plain (d : Z) (t : list Z) : Prop := lastns d t <> 47 /\ lastns d t <> 63.
Fixpoint okn (x : node) : Prop :=
  match x with
  | Text t => plain t
  | Markup t => plain t
  | Empty t w => plain t /\ Forall (fun c => isspace c = true) w /\ (exists c, firstns t = Some c /\ c <> 47)
  | Elem t kids t' => plain t /\ firstns t <> Some 47 /\ ends_plain 60 t /\
                      plain t' /\ ends_plain 47 t' /\ fold_right and True (map okn kids)
  end.

Lemma next_plain a c : op a <> 0 -> c <> 0 -> c <> 60 -> c <> 62 ->
  next a c = On (Ast (op a) (if (pc a =? 60) && (c =? 47) then -3 else tc a) (if isspace c then pc a else c) (cnt a)).
Proof.
  intros Ho H0 H1 H2. unfold next. rewrite (proj2 (Z.eqb_neq c 0) H0), (proj2 (Z.eqb_neq (op a) 0) Ho).
  rewrite (proj2 (Z.eqb_neq c 60) H1), (proj2 (Z.eqb_neq c 62) H2). cbn [andb]. by rewrite !andb_false_r.
Qed.
Lemma next_lt a : next a 60 = On (Ast (op a + 2) (tc a) 60 (cnt a)).
Proof. unfold next. cbn -[Z.add]. rewrite !andb_false_r. done. Qed.

(** Text without markup, inside of a tag or of an element. *)
Lemma runa_plain t : forall a s, plain t -> op a <> 0 -> pc a <> 60 ->
  runa a (t ++ s) = match runa (Ast (op a) (tc a) (lastns (pc a) t) (cnt a)) s with Some n => Some (length t + n)%nat | None => None end.
Proof.
  induction t as [|c t IH]; intros a s Ht Ho Hp.
  - cbn. destruct a. cbn. by destruct (runa _ s).
  - apply Forall_cons_1 in Ht as [(H0 & H1 & H2) Ht]. cbn [app runa]. rewrite next_plain by done.
    rewrite (proj2 (Z.eqb_neq (pc a) 60) Hp). cbn [andb].
    rewrite IH; [|done|done|cbn; destruct (isspace c); done].
    cbn [op tc pc cnt lastns]. by destruct (runa _ s).
Qed.
(** Text right after "<". *)
Lemma runa_tag t : forall a s, plain t -> op a <> 0 -> pc a = 60 ->
  runa a (t ++ s) = match runa (Ast (op a) (if bool_decide (firstns t = Some 47) then -3 else tc a) (lastns 60 t) (cnt a)) s with
                    | Some n => Some (length t + n)%nat | None => None end.
Proof.
  induction t as [|c t IH]; intros a s Ht Ho Hp.
  - cbn. destruct a. cbn in *. subst. by destruct (runa _ s).
  - apply Forall_cons_1 in Ht as [(H0 & H1 & H2) Ht]. cbn [app runa firstns lastns]. rewrite next_plain by done. rewrite Hp.
    destruct (isspace c) eqn:Es.
    + assert ((c =? 47) = false) as -> by (unfold isspace in Es; lia). cbn [andb].
      rewrite IH; [|done|done|done]. cbn [op tc pc cnt]. by destruct (runa _ s).
    + rewrite runa_plain; [|done|done|done]. cbn [op tc pc cnt]. change (60 =? 60) with true. cbn [andb].
      destruct (Z.eqb_spec c 47) as [->|Hc].
      * rewrite bool_decide_eq_true_2 by done. by destruct (runa _ s).
      * rewrite bool_decide_eq_false_2 by congruence. by destruct (runa _ s).
Qed.
Lemma lastns_app d t u : lastns d (t ++ u) = lastns (lastns d t) u.
Proof. revert d. induction t as [|c t IH]; intros d; [done|]. cbn. apply IH. Qed.
Lemma lastns_space d w : Forall (fun c => isspace c = true) w -> lastns d w = d.
Proof. intros H. induction H as [|c w Hc H IH]; [done|]. cbn. by rewrite Hc. Qed.
Lemma space_plain w : Forall (fun c => isspace c = true) w -> plain w.
Proof. intros H. eapply Forall_impl; [exact H|]. unfold isspace. cbn. intros c Hc. lia. Qed.
Lemma firstns_app_Some t u c : firstns t = Some c -> firstns (t ++ u) = Some c.
Proof. induction t as [|x t IH]; [done|]. cbn. destruct (isspace x); done. Qed.
Lemma lastns_ne60 t : forall d, plain t -> lastns d t = 60 -> d = 60 /\ firstns t = None.
Proof.
  induction t as [|c t IH]; intros d Ht H; [done|]. apply Forall_cons_1 in Ht as [(_ & Hc & _) Ht]. cbn in *.
  destruct (isspace c); [by apply IH|]. apply IH in H as [-> _]; done.
Qed.

(** Result of ">" inside of a tag. *)
Definition closing (p t : Z) : Z := if (p =? 63) || (p =? 47) then -2 else t.
Lemma next_gt a : op a <> 0 -> next a 62 =
  let o := op a + closing (pc a) (tc a) in
  if o <? 0 then No else if o =? 0 then if cnt a - 1 =? 0 then Yes else On (Ast o (-1) 62 (cnt a - 1))
  else On (Ast o (-1) 62 (cnt a)).
Proof.
  intros Ho. unfold next, closing. rewrite (proj2 (Z.eqb_neq (op a) 0) Ho).
  change (62 =? 0) with false. change (62 =? 60) with false. change (62 =? 62) with true. change (62 =? 47) with false.
  change (isspace 62) with false. cbn [andb]. rewrite !andb_true_r, !andb_false_r.
  destruct (Z.eqb_spec (pc a) 47) as [->|]; [cbn [orb Z.eqb]; done|]. rewrite orb_false_r. done.
Qed.

(** After a tag that leaves [o] open: go on, or count a document part. *)
Definition after (o : Z) (n : Z) (s : list Z) : option nat :=
  if o =? 0 then if n - 1 =? 0 then Some O else runa (Ast 0 (-1) 62 (n - 1)) s else runa (Ast o (-1) 62 n) s.

Lemma runa_gt a s o : op a <> 0 -> o = op a + closing (pc a) (tc a) -> 0 <= o ->
  runa a (62 :: s) = match after o (cnt a) s with Some n => Some (S n) | None => None end.
Proof.
  intros Ho -> H. cbn [runa]. rewrite next_gt by done. cbv zeta.
  destruct (Z.ltb_spec (op a + closing (pc a) (tc a)) 0); [lia|]. unfold after.
  destruct (Z.eqb_spec (op a + closing (pc a) (tc a)) 0) as [E|E]; [|done]. rewrite E. by destruct (cnt a - 1 =? 0).
Qed.

Lemma runa_lt a s : runa a (60 :: s) = match runa (Ast (op a + 2) (tc a) 60 (cnt a)) s with Some n => Some (S n) | None => None end.
Proof. cbn [runa]. by rewrite next_lt. Qed.

Definition shift (k : nat) (r : option nat) : option nat := match r with Some n => Some (k + n)%nat | None => None end.
Lemma shift_shift j k r : shift j (shift k r) = shift (j + k) r.
Proof. destruct r; cbn; [f_equal; lia|done]. Qed.
Lemma shift_0 r : shift 0 r = r.
Proof. by destruct r. Qed.

(** The three kinds of tags. *)
Lemma run_markup t a s : plain t -> 0 <= op a -> tc a = -1 ->
  runa a (render (Markup t) ++ s) = shift (length (render (Markup t))) (after (op a) (cnt a) s).
Proof.
  intros Ht Ho Htc. cbn [render app]. rewrite runa_lt.
  change (63 :: (t ++ [63; 62]) ++ s) with (([63] ++ t ++ [63; 62]) ++ s).
  replace (([63] ++ t ++ [63; 62]) ++ s) with (([63] ++ t ++ [63]) ++ 62 :: s) by (cbn; rewrite <- !app_assoc; done).
  rewrite runa_tag; [|apply Forall_app; split; [by repeat constructor|apply Forall_app; split; [done|by repeat constructor]]|cbn; lia|done].
  cbn [op tc pc cnt]. rewrite bool_decide_eq_false_2 by (cbn; discriminate).
  rewrite (runa_gt _ _ (op a)); [|cbn; lia| |done].
  2:{ cbn [op pc tc cnt]. rewrite app_assoc, lastns_app. cbn [lastns isspace]. unfold closing. cbn. lia. }
  cbn [cnt]. change (shift 1 (shift (length ([63] ++ t ++ [63])) (shift 1 (after (op a) (cnt a) s))) =
    shift (length (60 :: 63 :: t ++ [63; 62])) (after (op a) (cnt a) s)).
  rewrite !shift_shift. f_equal. cbn. rewrite !app_length. cbn. lia.
Qed.

Lemma run_empty t w a s : okn (Empty t w) -> 0 <= op a -> tc a = -1 ->
  runa a (render (Empty t w) ++ s) = shift (length (render (Empty t w))) (after (op a) (cnt a) s).
Proof.
  intros (Ht & Hw & c & Hf & Hc) Ho Htc. cbn [render app]. rewrite runa_lt.
  replace ((t ++ 47 :: w ++ [62]) ++ s) with ((t ++ [47] ++ w) ++ 62 :: s) by (cbn; rewrite <- !app_assoc; cbn; rewrite <- !app_assoc; done).
  rewrite runa_tag; [|apply Forall_app; split; [done|apply Forall_app; split; [by repeat constructor|by apply space_plain]]|cbn; lia|done].
  cbn [op tc pc cnt]. rewrite bool_decide_eq_false_2 by (rewrite (firstns_app_Some _ _ c Hf); congruence).
  rewrite (runa_gt _ _ (op a)); [|cbn; lia| |done].
  2:{ cbn [op pc tc cnt]. rewrite !lastns_app. rewrite (lastns_space _ w Hw). cbn [lastns isspace]. unfold closing. cbn. lia. }
  cbn [cnt]. change (shift 1 (shift (length (t ++ [47] ++ w)) (shift 1 (after (op a) (cnt a) s))) =
    shift (length (60 :: t ++ 47 :: w ++ [62])) (after (op a) (cnt a) s)).
  rewrite !shift_shift. f_equal. cbn. rewrite !app_length. cbn. rewrite !app_length. cbn. lia.
Qed.

Lemma run_open t a s : plain t -> firstns t <> Some 47 -> ends_plain 60 t -> 0 <= op a -> tc a = -1 ->
  runa a (60 :: t ++ 62 :: s) = shift (length t + 2) (runa (Ast (op a + 1) (-1) 62 (cnt a)) s).
Proof.
  intros Ht Hf [He1 He2] Ho Htc. rewrite runa_lt.
  rewrite runa_tag; [|done|cbn; lia|done]. cbn [op tc pc cnt]. rewrite bool_decide_eq_false_2 by done.
  rewrite (runa_gt _ _ (op a + 1)); [|cbn; lia| |lia].
  2:{ cbn [op pc tc cnt]. unfold closing. rewrite (proj2 (Z.eqb_neq _ _) He1), (proj2 (Z.eqb_neq _ _) He2). cbn. lia. }
  cbn [cnt]. unfold after. destruct (Z.eqb_spec (op a + 1) 0); [lia|].
  change (shift 1 (shift (length t) (shift 1 (runa (Ast (op a + 1) (-1) 62 (cnt a)) s))) = shift (length t + 2) (runa (Ast (op a + 1) (-1) 62 (cnt a)) s)).
  rewrite !shift_shift. f_equal. lia.
Qed.
Lemma run_close t a s : plain t -> ends_plain 47 t -> 1 <= op a ->
  runa a (60 :: 47 :: t ++ 62 :: s) = shift (length t + 3) (after (op a - 1) (cnt a) s).
Proof.
  intros Ht [He1 He2] Ho. rewrite runa_lt.
  change (47 :: t ++ 62 :: s) with ((47 :: t) ++ 62 :: s).
  rewrite runa_tag; [|constructor; [lia|done]|cbn; lia|done]. cbn [op tc pc cnt].
  rewrite bool_decide_eq_true_2 by done.
  rewrite (runa_gt _ _ (op a - 1)); [|cbn; lia| |lia].
  2:{ cbn [op pc tc cnt]. unfold closing.
      change (lastns 60 (47 :: t)) with (lastns 47 t).
      rewrite (proj2 (Z.eqb_neq _ _) He1), (proj2 (Z.eqb_neq _ _) He2). cbn. lia. }
  cbn [cnt].
  change (shift 1 (shift (length (47 :: t)) (shift 1 (after (op a - 1) (cnt a) s))) = shift (length t + 3) (after (op a - 1) (cnt a) s)).
  rewrite !shift_shift. f_equal. cbn. lia.
Qed.

Lemma node_ind' (P : node -> Prop) :
  (forall t, P (Text t)) -> (forall t, P (Markup t)) -> (forall t w, P (Empty t w)) ->
  (forall t kids t', Forall P kids -> P (Elem t kids t')) -> forall x, P x.
Proof.
  intros H1 H2 H3 H4. fix IH 1. intros [t|t|t w|t kids t']; [apply H1|apply H2|apply H3|].
  apply H4. induction kids as [|k kids IHk]; constructor; [apply IH|exact IHk].
Qed.

(** Inside of an element a node changes nothing but the last character. *)
Lemma run_node x : okn x -> forall a s, 1 <= op a -> tc a = -1 -> pc a <> 60 ->
  exists p, p <> 60 /\ runa a (render x ++ s) = shift (length (render x)) (runa (Ast (op a) (-1) p (cnt a)) s).
Proof.
  induction x as [t|t|t w|t kids t' IH] using node_ind'; intros Hx a s Ho Htc Hp.
  - exists (lastns (pc a) t). split.
    + intros E. apply lastns_ne60 in E as [E _]; done.
    + cbn [render]. rewrite runa_plain by (done || lia). by rewrite Htc.
  - exists 62. split; [done|]. rewrite run_markup by (done || lia). unfold after.
    destruct (Z.eqb_spec (op a) 0); [lia|done].
  - exists 62. split; [done|]. rewrite run_empty by (done || lia). unfold after.
    destruct (Z.eqb_spec (op a) 0); [lia|done].
  - destruct Hx as (H1 & H2 & H3 & H4 & H5 & Hk). exists 62. split; [done|].
    assert (Hkids : forall b u, 1 <= op b -> tc b = -1 -> pc b <> 60 ->
      exists p, p <> 60 /\ runa b (concat (map render kids) ++ u) = shift (length (concat (map render kids))) (runa (Ast (op b) (-1) p (cnt b)) u)).
    { clear -IH Hk. induction IH as [|x kids Hx HF IHk]; intros b u Hb1 Hb2 Hb3.
      - exists (pc b). split; [done|]. cbn. rewrite shift_0. destruct b; cbn in *; by subst.
      - cbn in Hk. destruct Hk as [Hkx Hk]. cbn [map concat]. rewrite <- app_assoc.
        destruct (Hx Hkx b (concat (map render kids) ++ u) Hb1 Hb2 Hb3) as (p & Hp & ->).
        destruct (IHk Hk (Ast (op b) (-1) p (cnt b)) u) as (q & Hq & ->); [done|done|done|].
        exists q. split; [done|]. cbn [op cnt]. rewrite shift_shift. f_equal. by rewrite app_length. }
    cbn [render app]. rewrite <- app_assoc. cbn [app].
    rewrite run_open by (done || lia). rewrite <- app_assoc. cbn [app].
    destruct (Hkids (Ast (op a + 1) (-1) 62 (cnt a)) (60 :: 47 :: (t' ++ [62]) ++ s)) as (p & Hp' & ->); [cbn; lia|done|done|].
    cbn [op cnt]. rewrite <- app_assoc. cbn [app]. rewrite run_close; [|done|done|cbn; lia].
    cbn [op cnt]. replace (op a + 1 - 1) with (op a) by lia. unfold after at 1.
    destruct (Z.eqb_spec (op a) 0); [lia|]. rewrite !shift_shift. f_equal.
    repeat first [rewrite app_length | progress cbn [length app]]. lia.
Qed.

(** White space between the parts of a document. *)
Lemma run_space w : forall a s, Forall (fun c => isspace c = true) w -> op a = 0 ->
  runa a (w ++ s) = shift (length w) (runa a s).
Proof.
  induction w as [|c w IH]; intros a s Hw Ho; [by rewrite shift_0|].
  apply Forall_cons_1 in Hw as [Hc Hw]. cbn [app runa]. unfold next. rewrite Hc, Ho.
  assert (c <> 0 /\ c <> 60 /\ c <> 62 /\ c <> 47) as (H0 & H1 & H2 & H3) by (unfold isspace in Hc; lia).
  rewrite (proj2 (Z.eqb_neq c 0) H0), (proj2 (Z.eqb_neq c 60) H1), (proj2 (Z.eqb_neq c 62) H2), (proj2 (Z.eqb_neq c 47) H3).
  rewrite !andb_false_r. cbn [orb negb andb].
  replace (Ast 0 (tc a) (pc a) (cnt a)) with a by (destruct a; cbn in *; by subst).
  rewrite IH by done. destruct (runa a s); cbn; done.
Qed.

(** A part of a document: anything but text. *)
Definition part (x : node) : Prop := match x with Text _ => False | _ => okn x end.
Lemma run_part x : part x -> forall a s, op a = 0 -> tc a = -1 ->
  runa a (render x ++ s) = shift (length (render x)) (after 0 (cnt a) s).
Proof.
  intros Hx a s Ho Htc. destruct x as [t|t|t w|t kids t']; [done|..].
  - rewrite run_markup by (done || lia). by rewrite Ho.
  - rewrite run_empty by (done || lia). by rewrite Ho.
  - destruct Hx as (H1 & H2 & H3 & H4 & H5 & Hk).
    assert (Hkids : forall b u, 1 <= op b -> tc b = -1 -> pc b <> 60 ->
      exists p, p <> 60 /\ runa b (concat (map render kids) ++ u) = shift (length (concat (map render kids))) (runa (Ast (op b) (-1) p (cnt b)) u)).
    { clear -Hk. induction kids as [|x kids IHk]; intros b u Hb1 Hb2 Hb3.
      - exists (pc b). split; [done|]. cbn. rewrite shift_0. destruct b; cbn in *; by subst.
      - cbn in Hk. destruct Hk as [Hkx Hk]. cbn [map concat]. rewrite <- app_assoc.
        destruct (run_node x Hkx b (concat (map render kids) ++ u) Hb1 Hb2 Hb3) as (p & Hp & ->).
        destruct (IHk Hk (Ast (op b) (-1) p (cnt b)) u) as (q & Hq & ->); [done|done|done|].
        exists q. split; [done|]. cbn [op cnt]. rewrite shift_shift. f_equal. by rewrite app_length. }
    cbn [render app]. rewrite <- app_assoc. cbn [app].
    rewrite run_open by (done || lia). rewrite <- app_assoc. cbn [app].
    destruct (Hkids (Ast (op a + 1) (-1) 62 (cnt a)) (60 :: 47 :: (t' ++ [62]) ++ s)) as (p & Hp' & ->); [cbn; lia|done|done|].
    cbn [op cnt]. rewrite <- app_assoc. cbn [app]. rewrite run_close; [|done|done|cbn; lia].
    cbn [op cnt]. replace (op a + 1 - 1) with 0 by lia.
    rewrite !shift_shift. f_equal.
    repeat first [rewrite app_length | progress cbn [length app]]. lia.
Qed.
