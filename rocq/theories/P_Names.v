(** C91: names are cut out of declarations and copied.  The name of a field that is
    not described becomes the first identifier of its declarator; [mr_strndup] and
    [mr_strdup] copy strings; a structure is known by the name clang's
    [__builtin_dump_struct] gives.  Refuted for declarators without an identifier,
    for qualified ones and for long strings. *)
From Coq Require Import String Ascii.
From Verif Require Import Base Names.
From Verif Require NumStr Value TypeName.
Local Open Scope Z_scope.

(** The characters of a literal. *)
Definition chars (s : string) : list Z := map (fun c => Z.of_nat (nat_of_ascii c)) (list_ascii_of_string s).

(** What identifiers are made of. *)
Definition id_chars : list Z :=
  chars "ABCDEFGHIJKLMNOPQRSTUVWXYZabcdefghijklmnopqrstuvwxyz0123456789_".

(** Other characters of ASCII, without the NUL. *)
Definition punct (c : Z) : Prop := 0 < c < 128 /\ c ∉ id_chars.

(** [s] is the string at [p]. *)
Definition str_at (m : list Z) (p : nat) (s : list Z) : Prop :=
  0 ∉ s /\ exists after, drop p m = s ++ 0 :: after.

Lemma id_range c : c ∈ id_chars <-> (65 <= c <= 90) \/ (97 <= c <= 122) \/ (48 <= c <= 57) \/ c = 95.
Proof.
  split.
  - intros H. apply elem_of_list_In in H.
    assert (forallb (fun c => ((65 <=? c) && (c <=? 90)) || ((97 <=? c) && (c <=? 122)) || ((48 <=? c) && (c <=? 57)) || (c =? 95))
              id_chars = true) as A by (vm_compute; reflexivity).
    rewrite forallb_forall in A. specialize (A c H). cbv beta in A. lia.
  - intros H. apply elem_of_list_In.
    assert (48 <= c <= 122) as R by lia.
    assert (forallb (fun n => let c := 48 + Z.of_nat n in
              implb (((65 <=? c) && (c <=? 90)) || ((97 <=? c) && (c <=? 122)) || ((48 <=? c) && (c <=? 57)) || (c =? 95))
                    (existsb (Z.eqb c) id_chars)) (seq 0 75) = true) as A by (vm_compute; reflexivity).
    rewrite forallb_forall in A. specialize (A (Z.to_nat (c - 48))).
    cbv zeta in A. replace (48 + Z.of_nat (Z.to_nat (c - 48))) with c in A by lia.
    assert (((65 <=? c) && (c <=? 90)) || ((97 <=? c) && (c <=? 122)) || ((48 <=? c) && (c <=? 57)) || (c =? 95) = true) as B by lia.
    rewrite B in A. cbn [implb] in A.
    assert (existsb (Z.eqb c) id_chars = true) as X by (apply A, in_seq; lia).
    apply existsb_exists in X as (y & I & E). apply Z.eqb_eq in E. by subst.
Qed.

Lemma is_name_id c : c ∈ id_chars -> is_name c = Some true.
Proof.
  rewrite id_range. intros H. unfold is_name, Value.isident, NumStr.isalpha, NumStr.isupper, NumStr.islower, NumStr.isdigit.
  replace (c <? 128) with true by lia. f_equal. lia.
Qed.

Lemma is_name_other c : 0 <= c < 128 -> c ∉ id_chars -> is_name c = Some false.
Proof.
  rewrite id_range. intros R H. unfold is_name, Value.isident, NumStr.isalpha, NumStr.isupper, NumStr.islower, NumStr.isdigit.
  replace (c <? 128) with true by lia. f_equal. lia.
Qed.

Lemma rd_mid (a : list Z) c b : rd (a ++ c :: b) (length a) = Some c.
Proof. unfold rd. by rewrite list_lookup_middle. Qed.

(** Over characters that are not of identifiers. *)
Lemma skip_invalid_to junk : forall fuel a c b,
  Forall (fun c => 0 <= c < 128 /\ c ∉ id_chars) junk -> c ∈ id_chars -> (length junk < fuel)%nat ->
  skip_invalid fuel (a ++ junk ++ c :: b) (length a) = Some (length a + length junk)%nat.
Proof.
  induction junk as [|j junk IH]; intros fuel a c b F C L; destruct fuel as [|fuel]; cbn [length] in *; try lia.
  - cbn. rewrite rd_mid. cbn [mbind option_bind]. rewrite (is_name_id _ C). cbn [mbind option_bind]. f_equal. lia.
  - apply Forall_cons in F as [[R N] F]. cbn [skip_invalid app]. rewrite rd_mid. cbn [mbind option_bind].
    rewrite (is_name_other _ R N). cbn [mbind option_bind].
    change (j :: junk ++ c :: b) with ([j] ++ (junk ++ c :: b)). rewrite (assoc_L (++)).
    replace (S (length a)) with (length (a ++ [j])) by (rewrite app_length; cbn; lia).
    rewrite IH; [|done|done|lia]. rewrite app_length. cbn. f_equal. lia.
Qed.

Lemma skip_invalid_end junk : forall fuel a,
  Forall (fun c => 0 <= c < 128 /\ c ∉ id_chars) junk ->
  skip_invalid fuel (a ++ junk) (length a) = None.
Proof.
  induction junk as [|j junk IH]; intros fuel a F; destruct fuel as [|fuel]; try done.
  - cbn. rewrite app_nil_r. unfold rd. by rewrite lookup_ge_None_2 by lia.
  - apply Forall_cons in F as [[R N] F]. cbn [skip_invalid]. rewrite rd_mid. cbn [mbind option_bind].
    rewrite (is_name_other _ R N). cbn [mbind option_bind].
    change (j :: junk) with ([j] ++ junk). rewrite (assoc_L (++)).
    replace (S (length a)) with (length (a ++ [j])) by (rewrite app_length; cbn; lia). by apply IH.
Qed.

Lemma skip_valid_to id : forall fuel a c b,
  Forall (fun c => c ∈ id_chars) id -> 0 <= c < 128 -> c ∉ id_chars -> (length id < fuel)%nat ->
  skip_valid fuel (a ++ id ++ c :: b) (length a) = Some (length a + length id)%nat.
Proof.
  induction id as [|j id IH]; intros fuel a c b F C D L; destruct fuel as [|fuel]; cbn [length] in *; try lia.
  - cbn. rewrite rd_mid. cbn [mbind option_bind]. rewrite (is_name_other _ C D). cbn [mbind option_bind]. f_equal. lia.
  - apply Forall_cons in F as [N F]. cbn [skip_valid app]. rewrite rd_mid. cbn [mbind option_bind].
    rewrite (is_name_id _ N). cbn [mbind option_bind].
    change (j :: id ++ c :: b) with ([j] ++ (id ++ c :: b)). rewrite (assoc_L (++)).
    replace (S (length a)) with (length (a ++ [j])) by (rewrite app_length; cbn; lia).
    rewrite IH; [|done|done|done|lia]. rewrite app_length. cbn. f_equal. lia.
Qed.

Lemma zero_not_id : 0 ∉ id_chars.
Proof. rewrite id_range. lia. Qed.

(** Literals. *)
Local Ltac all_punct :=
  lazymatch goal with
  | |- Forall _ ?l => let l' := eval vm_compute in l in change l with l'
  end;
  repeat (apply List.Forall_cons; [split; [lia|rewrite id_range; lia]|]); apply List.Forall_nil.
Local Ltac all_id :=
  lazymatch goal with
  | |- Forall ?P ?l => let l' := eval vm_compute in l in change (Forall P l')
  end;
  repeat (apply List.Forall_cons; [apply id_range; lia|]); apply List.Forall_nil.

(** The general run: [junk] may contain NULs behind its first character. *)
Lemma normalize_run pre junk id c b :
  Forall (fun c => 0 <= c < 128 /\ c ∉ id_chars) junk -> hd 1 junk <> 0 ->
  id <> [] -> Forall (fun c => c ∈ id_chars) id -> 0 <= c < 128 -> c ∉ id_chars ->
  normalize_field_name true (pre ++ junk ++ id ++ c :: b) (length pre)
  = Some ((length pre + length junk)%nat, pre ++ junk ++ id ++ 0 :: b).
Proof.
  intros J H0 NE I C D. destruct id as [|i id]; [done|]. clear NE.
  pose proof (Forall_inv I) as I1. cbn in I1.
  unfold normalize_field_name.
  assert (exists x, rd (pre ++ junk ++ (i :: id) ++ c :: b) (length pre) = Some x /\ x <> 0) as (x & E & X).
  { destruct junk as [|j junk]; cbn in H0 |- *; rewrite rd_mid; eexists; split; try done.
    intros ->. by apply zero_not_id. }
  rewrite E. cbn [mbind option_bind]. replace (x =? 0) with false by lia. cbn [negb andb].
  pose proof (skip_invalid_to junk (S (length (pre ++ junk ++ (i :: id) ++ c :: b))) pre i (id ++ c :: b) J I1) as S1.
  cbn [app] in S1 |- *. rewrite S1 by (rewrite !app_length; cbn; lia). cbn [mbind option_bind].
  pose proof (skip_valid_to (i :: id) (S (length (pre ++ junk ++ i :: id ++ c :: b))) (pre ++ junk) c b I C D) as S2.
  rewrite <- (assoc_L (++)), (app_length pre junk) in S2. cbn [app] in S2.
  rewrite S2 by (rewrite !app_length; cbn; rewrite app_length; cbn; lia). cbn [mbind option_bind].
  replace (pre ++ junk ++ i :: id ++ c :: b) with ((pre ++ junk ++ i :: id) ++ c :: b) by (by rewrite <- !(assoc_L (++))).
  replace (length pre + length junk + length (i :: id))%nat with (length (pre ++ junk ++ i :: id)) by (rewrite !app_length; lia).
  rewrite rd_mid. cbn [mbind option_bind].
  destruct (Z.eqb_spec c 0) as [->|Nz].
  - by rewrite <- !(assoc_L (++)).
  - rewrite wr_Some by (rewrite (app_length (pre ++ junk ++ i :: id)); cbn [length]; lia). cbn [mbind option_bind]. do 2 f_equal.
    rewrite (insert_app_r_alt (pre ++ junk ++ i :: id)) by lia. rewrite Nat.sub_diag. cbn [insert list_insert]. by rewrite <- !(assoc_L (++)).
Qed.

(** For every declarator [junk id rest] the name becomes the string [id]; no other
    character of the memory than the one behind [id] is changed. *)
Theorem C91_void_name pre junk id rest after :
  Forall punct junk -> id <> [] -> Forall (fun c => c ∈ id_chars) id ->
  (forall c, head rest = Some c -> punct c) ->
  let m := pre ++ junk ++ id ++ rest ++ 0 :: after in
  exists p m', normalize_field_name true m (length pre) = Some (p, m') /\
    p = (length pre + length junk)%nat /\ str_at m' p id /\ length m' = length m /\
    forall i, i <> (p + length id)%nat -> m' !! i = m !! i.
Proof.
  intros J NE I R m.
  assert (Forall (fun c => 0 <= c < 128 /\ c ∉ id_chars) junk) as J'.
  { eapply Forall_impl; [exact J|]. intros c [? ?]. split; [lia|done]. }
  assert (hd 1 junk <> 0) as H0.
  { destruct junk as [|j junk]; [done|]. apply Forall_cons in J as [[? ?] _]. cbn. lia. }
  assert (exists c b, rest ++ 0 :: after = c :: b /\ 0 <= c < 128 /\ c ∉ id_chars) as (c & b & E & C & D).
  { destruct rest as [|c rest].
    - exists 0, after. split; [done|]. split; [lia|apply zero_not_id].
    - destruct (R c eq_refl) as [? ?]. exists c, (rest ++ 0 :: after). split; [done|]. split; [lia|done]. }
  pose proof (normalize_run pre junk id c b J' H0 NE I C D) as N.
  subst m. rewrite E.
  eexists _, _. split; [exact N|]. split; [done|]. split; [|split].
  - split.
    + intros Z0. rewrite Forall_forall in I. by apply zero_not_id, I.
    + exists b. rewrite (assoc_L (++)). by rewrite drop_app_alt by (rewrite app_length; done).
  - rewrite !app_length. done.
  - intros i Hi. rewrite !(assoc_L (++)).
    replace (length pre + length junk + length id)%nat with (length ((pre ++ junk) ++ id)) in Hi by (rewrite !app_length; lia).
    destruct (decide (i < length ((pre ++ junk) ++ id)))%nat as [L|L].
    + by rewrite !(lookup_app_l ((pre ++ junk) ++ id)) by done.
    + rewrite !(lookup_app_r ((pre ++ junk) ++ id)) by lia.
      destruct (i - length ((pre ++ junk) ++ id))%nat eqn:X; [lia|done].
Qed.
Print Assumptions C91_void_name.

(** An array, a pointer to a function, a bit-field and a plain name. *)
Example C91_case :
  Forall punct (chars "(*") /\ Forall (fun c => c ∈ id_chars) (chars "call_2") /\
  normalize_field_name true (chars "(*call_2) (int x)" ++ [0]) 0
  = Some (2%nat, chars "(*call_2" ++ [0] ++ chars " (int x)" ++ [0]) /\
  normalize_field_name true (chars "flag:3" ++ [0]) 0 = Some (0%nat, chars "flag" ++ [0] ++ chars "3" ++ [0]).
Proof.
  split; [|split; [|split; vm_compute; reflexivity]].
  - all_punct.
  - all_id.
Qed.

(** Names of described fields and empty names are left alone. *)
Theorem C91_other_name void m p c :
  m !! p = Some c -> void = false \/ c = 0 -> normalize_field_name void m p = Some (p, m).
Proof.
  intros E H. unfold normalize_field_name, rd. rewrite E. cbn [mbind option_bind].
  destruct H as [-> | ->]; [by rewrite andb_false_r|done].
Qed.
Print Assumptions C91_other_name.

Example C91_other_case :
  normalize_field_name false (chars "a b" ++ [0]) 0 = Some (0%nat, chars "a b" ++ [0]).
Proof. apply (C91_other_name _ _ _ 97); [done|by left]. Qed.

(** REFUTED for declarators without an identifier, such as [( * )]: the search does
    not stop at the NUL and leaves the memory of the name. *)
Theorem C91_no_identifier_refuted junk :
  junk <> [] -> Forall punct junk -> normalize_field_name true (junk ++ [0]) 0 = None.
Proof.
  intros NE J. destruct junk as [|j junk]; [done|]. unfold normalize_field_name.
  apply Forall_cons in J as [[? ?] J]. change (rd ((j :: junk) ++ [0]) 0) with (Some j). cbn [mbind option_bind].
  replace (j =? 0) with false by lia. cbn [negb andb].
  pose proof (skip_invalid_end ((j :: junk) ++ [0]) (S (length ((j :: junk) ++ [0]))) []) as S1.
  cbn [length] in S1. cbn [app] in S1 |- *. rewrite S1; [done|].
  apply Forall_cons; split; [split; [lia|done]|]. apply Forall_app. split.
  - eapply Forall_impl; [exact J|]. intros c [? ?]. split; [lia|done].
  - apply Forall_cons; split; [|by apply Forall_nil]. split; [lia|apply zero_not_id].
Qed.
Print Assumptions C91_no_identifier_refuted.

Example C91_no_identifier_case : Forall punct (chars "(*)") /\ chars "(*)" <> [].
Proof. split; [|done]. all_punct. Qed.

(** REFUTED, the same where an identifier follows in memory: the field gets the
    name that stands behind its own. *)
Theorem C91_neighbour_refuted junk id after :
  junk <> [] -> Forall punct junk -> id <> [] -> Forall (fun c => c ∈ id_chars) id ->
  exists p m', normalize_field_name true (junk ++ 0 :: id ++ 0 :: after) 0 = Some (p, m') /\
    str_at m' p id /\ (length junk < p)%nat.
Proof.
  intros NJ J NE I.
  assert (Forall (fun c => 0 <= c < 128 /\ c ∉ id_chars) (junk ++ [0])) as J'.
  { apply Forall_app. split.
    - eapply Forall_impl; [exact J|]. intros c [? ?]. split; [lia|done].
    - apply Forall_cons; split; [|by apply Forall_nil]. split; [lia|apply zero_not_id]. }
  assert (hd 1 (junk ++ [0]) <> 0) as H0.
  { destruct junk as [|j junk]; [done|]. apply Forall_cons in J as [[? ?] _]. cbn. lia. }
  pose proof (normalize_run [] (junk ++ [0]) id 0 after J' H0 NE I ltac:(lia) zero_not_id) as N.
  cbn [app length] in N. rewrite <- (assoc_L (++)) in N. cbn [app] in N.
  eexists _, _. split; [exact N|]. rewrite app_length. cbn [length]. split; [|lia]. split.
  - intros Z0. rewrite Forall_forall in I. by apply zero_not_id, I.
  - exists after. rewrite (cons_middle 0 junk), (assoc_L (++)).
    by rewrite drop_app_alt by (rewrite app_length; cbn; lia).
Qed.
Print Assumptions C91_neighbour_refuted.

Example C91_neighbour_case :
  normalize_field_name true (chars "(*)" ++ [0] ++ chars "next" ++ [0]) 0
  = Some (4%nat, chars "(*)" ++ [0] ++ chars "next" ++ [0]).
Proof. vm_compute. reflexivity. Qed.

(** REFUTED for qualified declarators: [* const p] is named [const], as is
    every other one. *)
Theorem C91_qualifier_refuted id rest after :
  id <> [] -> Forall (fun c => c ∈ id_chars) id ->
  exists p m', normalize_field_name true (chars "* const " ++ id ++ rest ++ 0 :: after) 0 = Some (p, m') /\
    str_at m' p (chars "const").
Proof.
  intros _ _.
  destruct (C91_void_name [] (chars "* ") (chars "const") (chars " " ++ id ++ rest) after) as (p & m' & N & _ & S & _).
  - all_punct.
  - done.
  - all_id.
  - intros c E. assert (c = 32) as -> by (injection E as <-; vm_compute; reflexivity). split; [lia|]. rewrite id_range. lia.
  - exists p, m'. split; [|exact S]. rewrite <- N. f_equal. cbn. by rewrite <- (assoc_L (++)).
Qed.
Print Assumptions C91_qualifier_refuted.

Example C91_qualifier_case : chars "p" <> [] /\ Forall (fun c => c ∈ id_chars) (chars "p").
Proof. split; [done|]. all_id. Qed.

(** Copies of at most [size] characters. *)
Lemma strn_size_str s : forall n a b, 0 ∉ s ->
  strn_size n (a ++ s ++ 0 :: b) (length a) = Some (length a + Nat.min n (length s))%nat.
Proof.
  induction s as [|c s IH]; intros n a b H; destruct n as [|n]; cbn [strn_size length Nat.min]; try (f_equal; lia).
  - cbn [app]. rewrite rd_mid. cbn. f_equal. lia.
  - apply not_elem_of_cons in H as [H1 H]. cbn [app]. rewrite rd_mid. cbn [mbind option_bind].
    replace (c =? 0) with false by lia.
    change (c :: s ++ 0 :: b) with ([c] ++ (s ++ 0 :: b)). rewrite (assoc_L (++)).
    replace (S (length a)) with (length (a ++ [c])) by (rewrite app_length; cbn; lia).
    rewrite IH by done. rewrite app_length. cbn. f_equal. lia.
Qed.

Lemma strn_size_open n : forall (a s : list Z), 0 ∉ s -> (n <= length s)%nat ->
  strn_size n (a ++ s) (length a) = Some (length a + n)%nat.
Proof.
  induction n as [|n IH]; intros a s H L; cbn [strn_size]; [f_equal; lia|].
  destruct s as [|c s]; cbn [length] in L; [lia|]. apply not_elem_of_cons in H as [H1 H].
  rewrite rd_mid. cbn [mbind option_bind]. replace (c =? 0) with false by lia.
  change (c :: s) with ([c] ++ s). rewrite (assoc_L (++)).
  replace (S (length a)) with (length (a ++ [c])) by (rewrite app_length; cbn; lia).
  rewrite IH by (done || lia). rewrite app_length. cbn. f_equal. lia.
Qed.

(** [mr_strndup] of a string gives its first characters, terminated. *)
Theorem C91_strndup s after size :
  0 ∉ s -> strndup (s ++ 0 :: after) size = Some (take size s ++ [0]).
Proof.
  intros H. unfold strndup. pose proof (strn_size_str s size [] after H) as E. cbn [app length] in E.
  rewrite E. cbn [mbind option_bind]. unfold copy_out.
  replace (_ <=? _)%nat with true by (symmetry; apply Nat.leb_le; rewrite app_length; cbn; lia). cbn [mbind option_bind].
  do 2 f_equal. rewrite Nat.add_0_l, take_app_le by lia.
  destruct (Nat.min_spec size (length s)) as [[L ->]|[L ->]]; [done|].
  by rewrite firstn_all, take_ge by lia.
Qed.
Print Assumptions C91_strndup.

(** It reads no more than [size] characters, so they need not be terminated. *)
Theorem C91_strndup_open m size :
  0 ∉ m -> (size <= length m)%nat -> strndup m size = Some (take size m ++ [0]).
Proof.
  intros H L. unfold strndup. pose proof (strn_size_open size [] m H L) as E. cbn [app length] in E.
  rewrite E. cbn [mbind option_bind]. unfold copy_out.
  replace (_ <=? _)%nat with true by (symmetry; apply Nat.leb_le; lia). done.
Qed.
Print Assumptions C91_strndup_open.

Example C91_strndup_case :
  strndup (chars "name" ++ [0] ++ chars "x") 9 = Some (chars "name" ++ [0]) /\
  strndup (chars "name" ++ [0]) 2 = Some (chars "na" ++ [0]) /\
  strndup (chars "name") 4 = Some (chars "name" ++ [0]).
Proof. repeat split; vm_compute; reflexivity. Qed.

Lemma strlen_str s after : 0 ∉ s -> strlen (s ++ 0 :: after) = Some (length s).
Proof.
  induction s as [|c s IH]; intros H; [done|]. apply not_elem_of_cons in H as [H1 H].
  cbn [app strlen]. replace (c =? 0) with false by lia. by rewrite (IH H).
Qed.

(** [mr_strdup] copies strings of less than 2^31 - 1 characters. *)
Theorem C91_strdup s after :
  0 ∉ s -> Z.of_nat (length s) < 2 ^ 31 - 1 -> strdup (s ++ 0 :: after) = Some (Some (s ++ [0])).
Proof.
  intros H L. unfold strdup. rewrite (strlen_str _ _ H). cbn [mbind option_bind]. unfold to_int.
  rewrite (Z.mod_small _ (2 ^ 32)) by lia.
  replace (_ + 2 ^ 31 - 2 ^ 31) with (Z.of_nat (length s) + 1) by lia.
  replace (_ <? 0) with false by lia. unfold copy_out.
  replace (Z.to_nat _) with (length (s ++ [0])) by (rewrite app_length; cbn; lia).
  change (0 :: after) with ([0] ++ after). rewrite (assoc_L (++)).
  rewrite (proj2 (Nat.leb_le _ _)) by (rewrite (app_length (s ++ [0])); lia).
  by rewrite take_app.
Qed.
Print Assumptions C91_strdup.

Example C91_strdup_case : strdup (chars "name" ++ [0] ++ chars "x") = Some (Some (chars "name" ++ [0])).
Proof. vm_compute. reflexivity. Qed.

(** REFUTED for longer strings, whose size is kept in an [int]: from 2^31 - 1 to
    2^32 - 2 characters there is no copy ... *)
Theorem C91_strdup_fails_refuted s after :
  0 ∉ s -> 2 ^ 31 - 1 <= Z.of_nat (length s) < 2 ^ 32 - 1 -> strdup (s ++ 0 :: after) = Some None.
Proof.
  intros H L. unfold strdup. rewrite (strlen_str _ _ H). cbn [mbind option_bind]. unfold to_int.
  rewrite <- (Z.mod_unique_pos (Z.of_nat (length s) + 1 + 2 ^ 31) (2 ^ 32) 1 (Z.of_nat (length s) + 1 - 2 ^ 31)) by lia.
  by replace (_ <? 0) with true by lia.
Qed.
Print Assumptions C91_strdup_fails_refuted.

(** ... and from then on a block without a NUL. *)
Theorem C91_strdup_long_refuted s after :
  0 ∉ s -> 2 ^ 32 - 1 <= Z.of_nat (length s) < 2 ^ 32 + 2 ^ 31 - 1 ->
  exists block, strdup (s ++ 0 :: after) = Some (Some block) /\ 0 ∉ block.
Proof.
  intros H L. unfold strdup. rewrite (strlen_str _ _ H). cbn [mbind option_bind]. unfold to_int.
  rewrite <- (Z.mod_unique_pos (Z.of_nat (length s) + 1 + 2 ^ 31) (2 ^ 32) 1 (Z.of_nat (length s) + 1 + 2 ^ 31 - 2 ^ 32)) by lia.
  replace (_ <? 0) with false by lia. unfold copy_out.
  rewrite (proj2 (Nat.leb_le _ _)) by (rewrite app_length; cbn; lia). cbn [mbind option_bind].
  eexists. split; [done|]. rewrite take_app_le by lia. intros I. apply H. apply elem_of_take in I as (i & I & _). by eapply elem_of_list_lookup_2.
Qed.
Print Assumptions C91_strdup_long_refuted.

(** Such strings exist. *)
Example C91_long_case : exists s : list Z, 0 ∉ s /\ Z.of_nat (length s) = 2 ^ 32 + 5.
Proof.
  exists (replicate (Z.to_nat (2 ^ 32 + 5)) 65). split.
  - intros H. apply elem_of_replicate in H as [H _]. done.
  - rewrite replicate_length. apply Z2Nat.id. lia.
Qed.

Lemma is_prefix_app kw s : TypeName.is_prefix kw (kw ++ s) = true.
Proof. induction kw as [|k kw IH]; [done|]. cbn. by rewrite Z.eqb_refl, IH. Qed.

(** A keyword with its blank is not at the front of a word followed by nothing or a
    blank, if it is not that word. *)
Lemma is_prefix_word kw : forall w t, 32 ∉ kw -> 32 ∉ w -> w <> kw -> head t = None \/ head t = Some 32 ->
  TypeName.is_prefix (kw ++ [32]) (w ++ t) = false.
Proof.
  induction kw as [|k kw IH]; intros w t K W N T.
  - destruct w as [|c w]; [done|]. apply not_elem_of_cons in W as [W _]. cbn [app TypeName.is_prefix]. replace (32 =? c) with false by lia. done.
  - apply not_elem_of_cons in K as [K1 K]. destruct w as [|c w].
    + destruct t as [|x t]; [done|]. destruct T as [T|T]; [done|]. injection T as ->.
      cbn [app TypeName.is_prefix]. by replace (k =? 32) with false by lia.
    + apply not_elem_of_cons in W as [W1 W]. cbn [app TypeName.is_prefix]. destruct (Z.eqb_spec k c) as [->|]; [|done]. cbn [andb].
      apply IH; try done. congruence.
Qed.

Lemma first_word_word w t : 32 ∉ w -> first_word (w ++ 32 :: t) = Some w.
Proof.
  induction w as [|c w IH]; intros H; [done|]. apply not_elem_of_cons in H as [H1 H].
  cbn [app first_word]. replace (c =? 32) with false by lia. by rewrite (IH H).
Qed.

Lemma first_word_none w : 32 ∉ w -> first_word w = None.
Proof.
  induction w as [|c w IH]; intros H; [done|]. apply not_elem_of_cons in H as [H1 H].
  cbn [first_word]. replace (c =? 32) with false by lia. by rewrite (IH H).
Qed.

(** What clang may put before the name of a type. *)
Definition prefixes : list (list Z) := [[]; chars "struct "; chars "union "; chars "enum "].

(** Words of C that cannot be names. *)
Definition keywords : list (list Z) := [chars "struct"; chars "union"; chars "enum"].

Lemma skip_none w t : 32 ∉ w -> w ∉ keywords -> head t = None \/ head t = Some 32 ->
  forall kw, kw ∈ keywords -> TypeName.skip_keyword kw (w ++ t) = w ++ t.
Proof.
  intros W K T kw I. unfold TypeName.skip_keyword. rewrite is_prefix_word; try done.
  - unfold keywords in I. rewrite !elem_of_cons in I.
    destruct I as [-> |[-> |[-> |I]]]; [| | |by apply elem_of_nil in I]; apply (bool_decide_unpack _); by vm_compute.
  - by intros ->.
Qed.

Lemma skip_self kw t : TypeName.skip_keyword kw ((kw ++ [32]) ++ t) = t.
Proof.
  unfold TypeName.skip_keyword. rewrite is_prefix_app.
  by rewrite drop_app_alt by (rewrite app_length; done).
Qed.

Lemma skip_other kw k t : 32 ∉ kw -> 32 ∉ k -> k <> kw -> TypeName.skip_keyword kw ((k ++ [32]) ++ t) = (k ++ [32]) ++ t.
Proof.
  intros A B N. unfold TypeName.skip_keyword. rewrite <- (assoc_L (++)).
  rewrite is_prefix_word; try done. by right.
Qed.

Lemma skip_all pre w t : pre ∈ prefixes -> 32 ∉ w -> w ∉ keywords -> head t = None \/ head t = Some 32 ->
  TypeName.skip_keywords (pre ++ w ++ t) = w ++ t.
Proof.
  intros P W K T. unfold TypeName.skip_keywords.
  change TypeName.kw_struct with (chars "struct"). change TypeName.kw_union with (chars "union").
  change TypeName.kw_enum with (chars "enum").
  pose proof (skip_none w t W K T) as N.
  assert (forall kw, kw ∈ keywords -> 32 ∉ kw) as B.
  { intros kw I. unfold keywords in I. rewrite !elem_of_cons in I.
    destruct I as [-> |[-> |[-> |I]]]; [| | |by apply elem_of_nil in I]; apply (bool_decide_unpack _); by vm_compute. }
  assert (chars "struct" ∈ keywords /\ chars "union" ∈ keywords /\ chars "enum" ∈ keywords) as (K1 & K2 & K3).
  { unfold keywords. rewrite !elem_of_cons. tauto. }
  unfold prefixes in P. rewrite !elem_of_cons in P.
  destruct P as [-> |[-> |[-> |[-> |P]]]]; [| | | |by apply elem_of_nil in P].
  - cbn [app]. by rewrite (N _ K1), (N _ K2), (N _ K3).
  - change (chars "struct ") with (chars "struct" ++ [32]). rewrite skip_self. by rewrite (N _ K2), (N _ K3).
  - change (chars "union ") with (chars "union" ++ [32]).
    rewrite (skip_other (chars "struct") (chars "union")) by first [by apply B|done]. rewrite skip_self. by rewrite (N _ K3).
  - change (chars "enum ") with (chars "enum" ++ [32]).
    rewrite (skip_other (chars "struct") (chars "enum")) by first [by apply B|done].
    rewrite (skip_other (chars "union") (chars "enum")) by first [by apply B|done]. by rewrite skip_self.
Qed.

(** A type whose name [w] is in the collection is found whether clang names it with
    a keyword or not, alone or followed by more, in the format or behind "%s"; one
    that is not, is not; nor is the structure used in place of other types. *)
Theorem C91_type_name names pre w t fmt arg :
  pre ∈ prefixes -> 32 ∉ w -> 37 ∉ w -> w ∉ keywords -> head t = None \/ head t = Some 32 ->
  (t <> [] -> w ++ t ∉ names) ->
  (fmt = chars "%s" /\ arg = pre ++ w ++ t) \/ fmt = pre ++ w ++ t ->
  (w ∈ names -> w <> chars "mr_dummy_struct_t" -> struct_type_name names fmt arg = Some w) /\
  (w ∉ names \/ w = chars "mr_dummy_struct_t" -> struct_type_name names fmt arg = None).
Proof.
  intros P W Q K T NT F. unfold struct_type_name.
  assert ((if bool_decide (fmt = percent_s) then arg else fmt) = pre ++ w ++ t) as ->.
  { destruct F as [[-> ->]| ->]; [by rewrite bool_decide_eq_true_2 by done|].
    rewrite bool_decide_eq_false_2; [done|]. intros E. unfold percent_s in E.
    assert (37 ∈ pre ++ w ++ t) as I by (rewrite E; constructor).
    rewrite !elem_of_app in I. destruct I as [I|[I|I]]; [|done|].
    - unfold prefixes in P. rewrite !elem_of_cons in P.
      destruct P as [-> |[-> |[-> |[-> |P]]]]; [| | | |by apply elem_of_nil in P];
        revert I; apply (bool_decide_unpack (~ _)); by vm_compute.
    - destruct T as [T|T]; destruct t as [|x t]; try done; [by apply elem_of_nil in I|].
      injection T as ->. apply (f_equal (fun l => 32 ∈ l)) in E.
      assert (32 ∈ [37; 115]) as X by (rewrite <- E, !elem_of_app; right; right; constructor).
      rewrite !elem_of_cons in X. destruct X as [X|[X|X]]; [done|done|by apply elem_of_nil in X]. }
  rewrite skip_all by done. change dummy with (chars "mr_dummy_struct_t"). unfold any_fd.
  assert ((if bool_decide (w ++ t ∈ names) then Some (w ++ t)
           else w ← first_word (w ++ t); if bool_decide (w ∈ names) then Some w else None)
          = if bool_decide (w ∈ names) then Some w else None) as ->.
  { destruct t as [|x t].
    - rewrite app_nil_r. destruct (bool_decide (w ∈ names)) eqn:E; [done|]. by rewrite first_word_none.
    - destruct T as [T|T]; [done|]. injection T as ->.
      rewrite (bool_decide_eq_false_2 (w ++ 32 :: t ∈ names)) by (by apply NT).
      by rewrite first_word_word. }
  split.
  - intros I D. rewrite bool_decide_eq_true_2 by done. by rewrite bool_decide_eq_false_2.
  - intros [I| ->].
    + by rewrite bool_decide_eq_false_2 by done.
    + destruct (bool_decide _); [|done]. by rewrite bool_decide_eq_true_2.
Qed.
Print Assumptions C91_type_name.

Example C91_type_name_case :
  let names := [chars "x"; chars "point_t"; chars "mr_dummy_struct_t"] in
  struct_type_name names (chars "%s") (chars "struct point_t") = Some (chars "point_t") /\
  struct_type_name names (chars "point_t {") [] = Some (chars "point_t") /\
  struct_type_name names (chars "%s") (chars "union other_t") = None /\
  struct_type_name names (chars "mr_dummy_struct_t") [] = None /\
  chars "point_t" ∈ names /\ chars "point_t" ++ chars " {" ∉ names /\ chars "point_t" ∉ keywords.
Proof.
  repeat split; try (vm_compute; reflexivity); apply (bool_decide_unpack _); vm_compute; exact I.
Qed.
