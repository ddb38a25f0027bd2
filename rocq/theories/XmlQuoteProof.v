(** Proofs about XML text escaping. *)
From Verif Require Import Base NumStr NumStrProof Quote QuoteProof XmlQuote.
Local Open Scope Z_scope.

Lemma hex_up_val d : 0 <= d < 16 -> digit_val (hex_char_up d) = d.
Proof.
  intros H. unfold hex_char_up, digit_val, isdigit. destruct (Z.ltb_spec d 10).
  - replace ((48 <=? 48 + d) && (48 + d <=? 57)) with true by lia. lia.
  - replace ((48 <=? 55 + d) && (55 + d <=? 57)) with false by lia.
    replace ((97 <=? 55 + d) && (55 + d <=? 102)) with false by lia.
    replace ((65 <=? 55 + d) && (55 + d <=? 70)) with true by lia. lia.
Qed.

Lemma hex_up_range d : 0 <= d < 16 -> 48 <= hex_char_up d <= 57 \/ 65 <= hex_char_up d <= 70.
Proof. intros H. unfold hex_char_up. destruct (Z.ltb_spec d 10); lia. Qed.

Lemma rd_next {A} (pre : list A) a b r : rd (pre ++ a :: b :: r) (S (length pre)) = Some b.
Proof. unfold rd. rewrite lookup_app_r by lia. by replace (S (length pre) - length pre)%nat with 1%nat by lia. Qed.

Lemma drop_two {A} (pre : list A) a b u : drop (S (S (length pre))) (pre ++ a :: b :: u) = u.
Proof.
  replace (pre ++ a :: b :: u) with ((pre ++ [a; b]) ++ u) by by rewrite <- app_assoc.
  replace (S (S (length pre))) with (length (pre ++ [a; b])) by (rewrite app_length; cbn; lia). apply drop_mid.
Qed.

Lemma xml_cases ip c :
  (exists m, xml_quote_char ip c = m /\ xml_esc c = m /\ c ∈ [38; 60; 62; 34]) \/
  (xml_quote_char ip c = [c] /\ c ∉ [38; 60; 62; 34] /\ ip c = true) \/
  (xml_quote_char ip c = [38; 35; 120; hex_char_up (c / 16); hex_char_up (c mod 16); 59] /\ c ∉ [38; 60; 62; 34] /\ ip c = false).
Proof.
  unfold xml_quote_char. destruct (decide (c ∈ [38; 60; 62; 34])) as [Hin|Hout].
  - left. eexists. split; [reflexivity|]. split; [|done]. rewrite !elem_of_cons, elem_of_nil in Hin.
    by repeat destruct Hin as [-> |Hin].
  - right. assert (E : xml_esc c = []).
    { unfold xml_esc. repeat (case_match; try done); exfalso; apply Hout; rewrite !elem_of_cons; auto. }
    rewrite E. destruct (ip c); [left|right]; done.
Qed.

Lemma xml_step_ok ip pre c t : is_byte c ->
  xml_step (pre ++ xml_quote_char ip c ++ t) (length pre) = Some ([c], (length pre + length (xml_quote_char ip c))%nat).
Proof.
  intros Hc. destruct (xml_cases ip c) as [(m & -> & Hm & Hin)|[(-> & Hout & _)|(-> & Hout & _)]].
  - rewrite !elem_of_cons, elem_of_nil in Hin. unfold xml_step.
    repeat destruct Hin as [-> |Hin]; try done; cbn in Hm; subst m; cbn [app];
      rewrite rd_mid; cbn [mbind option_bind]; change (negb (38 =? 38)) with false; cbv iota;
      rewrite drop_mid;
      rewrite rd_next; cbn [esc_copy_ok]; 
      unfold esc_copy_ok; cbn [take existsb]; rewrite ?Z.eqb_refl, ?orb_true_r, ?orb_true_l; cbn [negb orb mbind option_bind];
      rewrite ?orb_true_r; cbn [negb]; rewrite drop_two.
    all: vm_compute; done.
  - unfold xml_step. cbn [app length]. rewrite rd_mid. cbn [mbind option_bind]. rewrite (proj2 (Z.eqb_neq c 38)).
    + cbn. f_equal. f_equal. lia.
    + intros ->. apply Hout. by left.
  - unfold xml_step. cbn [app length]. rewrite rd_mid. cbn [mbind option_bind]. change (negb (38 =? 38)) with false. cbv iota.
    rewrite drop_mid, rd_next. unfold esc_copy_ok. cbn [take existsb]. change (59 =? 59) with true.
    cbn [orb]. rewrite !orb_true_r. cbn [orb negb mbind option_bind]. change (35 =? 35) with true. cbv iota.
    cbn [scan_xml_code].
    unfold is_byte in Hc.
    assert (0 <= c / 16 < 16) by (split; [apply Z.div_pos; lia|apply Z.div_lt_upper_bound; lia]).
    assert (0 <= c mod 16 < 16) by (apply Z.mod_pos_bound; lia).
    pose proof (Z.div_mod c 16 ltac:(lia)).
    change (hex_char_up (c / 16) :: hex_char_up (c mod 16) :: 59 :: t) with ([hex_char_up (c / 16); hex_char_up (c mod 16)] ++ 59 :: t).
    rewrite (scan_int_ok 16 _ 2 (59 :: t) c); [|by right|cbn; lia| |cbn; lia|by left| |lia].
    + cbn. rewrite Z.mod_small by lia. done.
    + rewrite !Forall_cons, !hex_up_val by lia. repeat split; try done; lia.
    + cbn. rewrite !hex_up_val by lia. lia.
Qed.

Lemma xml_quote_nonempty ip c : (0 < length (xml_quote_char ip c))%nat.
Proof.
  destruct (xml_cases ip c) as [(m & -> & Hm & Hin)|[(-> & _)|(-> & _)]]; [|cbn; lia|cbn; lia].
  rewrite !elem_of_cons, elem_of_nil in Hin. repeat destruct Hin as [-> |Hin]; try done; cbn in Hm; subst m; cbn; lia.
Qed.

Lemma xml_loop_ok ip s : forall pre rest f, Forall is_byte s -> (length s < f)%nat ->
  xml_loop f (pre ++ xml_quote ip s ++ rest) (length pre + length (xml_quote ip s)) (length pre) = Some s.
Proof.
  induction s as [|c s IH]; intros pre rest f Hs Hf; (destruct f as [|f]; [cbn in Hf; lia|]); cbn [xml_loop].
  - destruct (Nat.ltb_spec (length pre) (length pre + length (xml_quote ip []))); [cbn in *; lia|done].
  - apply Forall_cons in Hs as [Hc Hs]. unfold xml_quote in *. cbn [map concat]. rewrite app_length.
    pose proof (xml_quote_nonempty ip c).
    destruct (Nat.ltb_spec (length pre) (length pre + (length (xml_quote_char ip c) + length (concat (map (xml_quote_char ip) s))))); [|lia].
    rewrite <- app_assoc, xml_step_ok by done. cbn [mbind option_bind fst snd].
    specialize (IH (pre ++ xml_quote_char ip c) rest f Hs ltac:(cbn in Hf; lia)).
    rewrite <- app_assoc, app_length, <- Nat.add_assoc in IH. rewrite IH. done.
Qed.

Lemma xml_quoted_chars ip s : Forall is_byte s -> Forall (fun x => x <> 60 /\ x <> 62 /\ x <> 34) (xml_quote ip s).
Proof.
  induction 1 as [|c s Hc Hs IH]; [constructor|]. unfold xml_quote in *. cbn [map concat]. apply Forall_app. split; [|done].
  destruct (xml_cases ip c) as [(m & -> & Hm & Hin)|[(-> & Hout & _)|(-> & Hout & _)]].
  - rewrite !elem_of_cons, elem_of_nil in Hin. repeat destruct Hin as [-> |Hin]; try done; cbn in Hm; subst m; repeat constructor; lia.
  - constructor; [|constructor]. rewrite !elem_of_cons in Hout. tauto.
  - unfold is_byte in Hc.
    assert (0 <= c / 16 < 16) by (split; [apply Z.div_pos; lia|apply Z.div_lt_upper_bound; lia]).
    assert (0 <= c mod 16 < 16) by (apply Z.mod_pos_bound; lia).
    pose proof (hex_up_range (c / 16) ltac:(lia)). pose proof (hex_up_range (c mod 16) ltac:(lia)).
    rewrite !Forall_cons. repeat split; try lia. constructor.
Qed.

Lemma xml_content_app l rest : Forall (fun x => x <> 60 /\ x <> 62 /\ x <> 34) l -> xml_content (l ++ 60 :: rest) = l.
Proof.
  induction 1 as [|c l [Hc _] Hl IH]; [done|]. cbn [app xml_content]. rewrite (proj2 (Z.eqb_neq c 60)) by done. by rewrite IH.
Qed.

Lemma xml_no_amp ip s : existsb (Z.eqb 38) (xml_quote ip s) = false -> xml_quote ip s = s.
Proof.
  induction s as [|c s IH]; intros H; [done|]. unfold xml_quote in *. cbn [map concat] in *. rewrite existsb_app in H.
  apply orb_false_elim in H as [H1 H2]. rewrite (IH H2).
  destruct (xml_cases ip c) as [(m & E & Hm & Hin)|[(-> & _)|(E & _)]]; [|done|by rewrite E in H1].
  exfalso. rewrite E in H1. rewrite !elem_of_cons, elem_of_nil in Hin. repeat destruct Hin as [-> |Hin]; try done; cbn in Hm; subst m; done.
Qed.

Lemma xml_quoted_length ip s : (length s <= length (xml_quote ip s))%nat.
Proof.
  induction s as [|c s IH]; unfold xml_quote in *; cbn [map concat length]; [lia|]. rewrite app_length.
  pose proof (xml_quote_nonempty ip c). lia.
Qed.

Lemma xml_round_trip ip s rest : Forall is_byte s -> xml_read (xml_quote ip s ++ 60 :: rest) = Some s.
Proof.
  intros Hs. unfold xml_read. rewrite xml_content_app by by apply xml_quoted_chars.
  destruct (existsb (Z.eqb 38) (xml_quote ip s)) eqn:E; [|by rewrite xml_no_amp].
  apply (xml_loop_ok ip s [] (60 :: rest)); [done|]. pose proof (xml_quoted_length ip s). lia.
Qed.

(** ** Termination on well-formed text *)

(** Text on which every '&' is followed closely by a semicolon, and "&#x" by one
    or two hexadecimal digits and a semicolon, or by something which cannot
    start a number. *)
Definition xml_wellformed (s : list Z) (n : nat) : Prop :=
  forall i, (i < n)%nat -> s !! i = Some 38 ->
    (exists j c, (j < 9)%nat /\ s !! (i + j)%nat = Some c /\ (c = 59 \/ c = 0)) /\
    (forall t, drop (S i) s = 35 :: 120 :: t ->
       (exists ds r, t = ds ++ 59 :: r /\ (length ds = 1%nat \/ length ds = 2%nat) /\ Forall (fun c => digit_val c < 16) ds) \/
       (forall c, head t = Some c -> isspace c = false /\ c <> 43 /\ c <> 45 /\ 16 <= digit_val c)).

Lemma scan_int_one a t : digit_val a < 16 -> scan_int 16 2 (a :: 59 :: t) = Some (digit_val a, 1%nat).
Proof.
  intros Ha. destruct (digit_val_lt a 16 Ha ltac:(lia)) as (A1 & A2 & A3 & A4 & A5 & A6 & A7).
  unfold scan_int. cbn [scan_space]. rewrite A1. cbn [drop]. rewrite (proj2 (Z.eqb_neq a 43)), (proj2 (Z.eqb_neq a 45)) by done.
  cbn [orb drop]. change (16 =? 16) with true. cbv iota.
  assert (P : match a :: 59 :: t with
      | 48 :: x :: t0 => if ((x =? 120) || (x =? 88)) && Nat.ltb 0 (scan_digits 16 (2 - 0 - 2) t0 0).2 then 2%nat else 0%nat
      | _ => 0%nat end = 0%nat) by (repeat case_match; done).
  rewrite P. cbn [drop Nat.sub scan_digits]. destruct (Z.ltb_spec (digit_val a) 16); [|lia].
  change (digit_val 59 <? 16) with false. cbv iota. cbn [fst snd Nat.eqb].
  replace (0 * 16 + digit_val a) with (digit_val a) by lia.
  replace (2 ^ 64 <=? digit_val a) with false by lia. by rewrite Z.mod_small by lia.
Qed.

Lemma scan_int_none16 c t w : isspace c = false -> c <> 43 -> c <> 45 -> 16 <= digit_val c -> scan_int 16 w (c :: t) = None.
Proof.
  intros H1 H2 H3 H4. unfold scan_int. cbn [scan_space]. rewrite H1. cbn [drop].
  rewrite (proj2 (Z.eqb_neq c 43)), (proj2 (Z.eqb_neq c 45)) by done. cbn [orb drop]. change (16 =? 16) with true. cbv iota.
  assert (Nc : c <> 48) by (intros ->; cbn in H4; lia).
  assert (P : match c :: t with
      | 48 :: x :: t0 => if ((x =? 120) || (x =? 88)) && Nat.ltb 0 (scan_digits 16 (w - 0 - 2) t0 0).2 then 2%nat else 0%nat
      | _ => 0%nat end = 0%nat) by (repeat case_match; done).
  rewrite P. cbn [drop]. destruct (w - 0 - 0)%nat; [done|]. cbn [scan_digits].
  destruct (Z.ltb_spec (digit_val c) 16); [lia|done].
Qed.

Lemma xml_step_progress s n i : xml_wellformed s n -> (i < n)%nat -> (n < length s)%nat ->
  exists out j, xml_step s i = Some (out, j) /\ (i < j)%nat /\ (length out <= 1)%nat.
Proof.
  intros W Hi Hn. unfold xml_step. destruct (rd_Some s i ltac:(lia)) as (c & Ec). rewrite Ec. cbn [mbind option_bind].
  destruct (Z.eqb_spec c 38) as [->|Nc]; cbn [negb]; [|eexists _, _; split; [done|cbn; lia]].
  destruct (W i Hi Ec) as [(j & x & Hj & Ex & Hx) Wh].
  assert (Ok : esc_copy_ok (drop i s) = true).
  { unfold esc_copy_ok. apply orb_true_intro. left. apply existsb_exists. exists x. split; [|lia].
    apply elem_of_list_In. apply (elem_of_list_lookup_2 _ j). rewrite lookup_take by lia. by rewrite lookup_drop. }
  rewrite Ok. cbn [negb]. destruct (rd_Some s (S i) ltac:(lia)) as (d & Ed). rewrite Ed. cbn [mbind option_bind].
  destruct (Z.eqb_spec d 35) as [->|Nd].
  - rewrite (drop_S s 38 i) by done. rewrite (drop_S s 35 (S i)) by done. cbn [scan_xml_code].
    destruct (drop (S (S i)) s) as [|y t] eqn:Et; [eexists _, _; split; [done|cbn; lia]|].
    destruct (decide (y = 120)) as [->|Ny].
    2:{ assert (Q : match y :: t with 120 :: t0 => r ← scan_int 16 2 t0; Some (r.1, if default 0 (t0 !! r.2) =? 59 then (3 + r.2 + 1)%nat else 0%nat) | _ => None end = @None (Z * nat)) by (repeat case_match; done).
        cbn in Q. cbn. rewrite Q. eexists _, _; split; [done|cbn; lia]. }
    destruct (Wh t) as [(ds & r & -> & Hl & Hds)|Hno].
    { rewrite (drop_S s 35 (S i)) by done. by rewrite Et. }
    + assert (exists v, scan_int 16 2 (ds ++ 59 :: r) = Some (v, length ds)) as (v & Ev).
      { destruct ds as [|a [|b [|? ?]]]; cbn in Hl; try lia.
        - apply Forall_cons in Hds as [Ha _]. eexists. by apply scan_int_one.
        - eexists. apply scan_int_ok; [by right|cbn; lia|done|cbn; lia|by left|reflexivity|].
          rewrite !Forall_cons in Hds. destruct Hds as (Ha & Hb & _). cbn.
          destruct (digit_val_lt a 16 Ha ltac:(lia)) as (_ & _ & _ & _ & _ & _ & ?).
          destruct (digit_val_lt b 16 Hb ltac:(lia)) as (_ & _ & _ & _ & _ & _ & ?). lia. }
      rewrite Ev. cbn [mbind option_bind fst snd]. rewrite list_lookup_middle by done. cbn [default].
      change (59 =? 59) with true. eexists _, _. split; [reflexivity|]. cbn. lia.
    + destruct t as [|x2 t].
      * cbn. eexists _, _; split; [done|cbn; lia].
      * destruct (Hno x2 eq_refl) as (S1 & S2 & S3 & S4). rewrite scan_int_none16 by done. cbn. eexists _, _; split; [done|cbn; lia].
  - destruct (default None (esc_seq_hash !! Z.to_nat (tolower d))) as [[seq sy]|] eqn:Eh; [|eexists _, _; split; [done|cbn; lia]].
    destruct (strncasecmp_eq _ _ _); [|eexists _, _; split; [done|cbn; lia]].
    eexists _, _. split; [reflexivity|]. split; [|cbn; lia].
    assert (Hseq : forall k e, esc_seq_hash !! k = Some (Some e) -> (0 < length e.1)%nat).
    { assert (forallb (fun o => match o with Some e => Nat.ltb 0 (length (fst e)) | None => true end) esc_seq_hash = true) as F by by vm_compute.
      intros k e Hk. rewrite forallb_forall in F. specialize (F (Some e)).
      apply Nat.ltb_lt, F, elem_of_list_In. by eapply elem_of_list_lookup_2. }
    destruct (esc_seq_hash !! Z.to_nat (tolower d)) as [[e|]|] eqn:El; [|done|done]. cbn in Eh. injection Eh as ->.
    specialize (Hseq _ _ El). cbn in Hseq. lia.
Qed.

Lemma xml_terminates s n : xml_wellformed s n -> (n < length s)%nat -> forall f i, (n - i < f)%nat ->
  exists r, xml_loop f s n i = Some r /\ (length r <= n - i)%nat.
Proof.
  intros W Hn. induction f as [|f IH]; intros i Hf; [lia|]. cbn [xml_loop].
  destruct (Nat.ltb_spec i n) as [L|L]; [|exists []; cbn; split; [done|lia]].
  destruct (xml_step_progress s n i W L Hn) as (out & j & E & Hj & Lo). rewrite E. cbn [mbind option_bind fst snd].
  destruct (IH j ltac:(lia)) as (r & Er & Lr). rewrite Er. cbn. eexists. split; [done|]. rewrite app_length. lia.
Qed.

Lemma xml_loops_forever rest : forall f, xml_loop f ([38; 35; 120; 52; 49; 44; 59] ++ rest) 7 0 = None.
Proof.
  induction f as [|f IH]; [done|]. cbn [xml_loop]. change (Nat.ltb 0 7) with true. cbv iota.
  assert (E : xml_step ([38; 35; 120; 52; 49; 44; 59] ++ rest) 0 = Some ([65], 0%nat)) by (cbn; vm_compute; done).
  rewrite E. cbn [mbind option_bind fst snd]. by rewrite IH.
Qed.

(** ** Decoding of any well-formed text *)

(** A piece of text and the character it stands for: a character of its own, one of
    the four names in upper or lower case, a reference of one or two digits. *)
Inductive xml_unit : list Z -> Z -> Prop :=
  | xu_char c : c <> 38 -> c <> 60 -> xml_unit [c] c
  | xu_name name lower c : map tolower name = lower ->
      (lower, c) ∈ [([97; 109; 112], 38); ([108; 116], 60); ([103; 116], 62); ([113; 117; 111; 116], 34)] ->
      xml_unit (38 :: name ++ [59]) c
  | xu_one a : digit_val a < 16 -> xml_unit [38; 35; 120; a; 59] (digit_val a)
  | xu_two a b : digit_val a < 16 -> digit_val b < 16 -> xml_unit [38; 35; 120; a; b; 59] (digit_val a * 16 + digit_val b).

Lemma tolower_nz x y : tolower x = y -> y <> 0 -> (x =? 0) = false.
Proof. unfold tolower, isupper. intros H N. destruct (Z.eqb_spec x 0) as [->|]; [cbn in H; lia|done]. Qed.

Lemma tolower_35 x y : tolower x = y -> 97 <= y -> (x =? 35) = false /\ (x =? 59) = false /\ x <> 60.
Proof.
  unfold tolower, isupper. intros H N. destruct ((65 <=? x) && (x <=? 90)) eqn:E; lia.
Qed.

Lemma digit_val_range a : digit_val a < 16 -> 0 <= digit_val a /\ a <> 60.
Proof.
  intros H. destruct (digit_val_lt a 16 H ltac:(lia)) as (_ & _ & _ & _ & _ & _ & H0).
  split; [done|]. intros ->. by vm_compute in H.
Qed.

Lemma map_cons_inv {A B} (f : A -> B) l y ys : map f l = y :: ys -> exists x xs, l = x :: xs /\ f x = y /\ map f xs = ys.
Proof. destruct l as [|x xs]; [done|]. cbn. intros [= <- <-]. by exists x, xs. Qed.

Lemma strncase_ok a b t : length a = length b -> map tolower a = map tolower b -> Forall (fun c => c <> 0) a ->
  forall n, n = length b -> strncasecmp_eq (a ++ t) b n = true.
Proof.
  revert b. induction a as [|x a IH]; intros [|y b] Hl Hm Hz n ->; try done. cbn in *. injection Hm as E1 E2.
  apply Forall_cons in Hz as [Hx Hz]. rewrite E1, Z.eqb_refl. destruct (Z.eqb_spec x 0); [done|]. apply IH; [lia|done|done|done].
Qed.

Lemma xml_unit_step pre u c t : xml_unit u c ->
  xml_step (pre ++ u ++ t) (length pre) = Some ([c], (length pre + length u)%nat).
Proof.
  intros H. unfold xml_step. destruct H as [c N1 N2|name lower c Hn Hin|a Ha|a b Ha Hb].
  - cbn [app length]. rewrite rd_mid. cbn [mbind option_bind]. rewrite (proj2 (Z.eqb_neq c 38)) by done.
    cbn. f_equal. f_equal. lia.
  - rewrite !elem_of_cons, elem_of_nil in Hin.
    destruct Hin as [[= -> ->]|[[= -> ->]|[[= -> ->]|[[= -> ->]|[]]]]];
      repeat (let x := fresh "x" in let E := fresh "E" in apply map_cons_inv in Hn as (x & ? & -> & E & Hn));
      apply map_eq_nil in Hn; subst; cbn [app length];
      rewrite rd_mid; cbn [mbind option_bind]; change (negb (38 =? 38)) with false; cbv iota;
      rewrite drop_mid, rd_next, drop_two; unfold esc_copy_ok; cbn [take existsb]; change (59 =? 59) with true;
      cbn [orb]; rewrite ?orb_true_r; cbn [orb negb mbind option_bind].
    all: destruct (tolower_35 _ _ E ltac:(lia)) as (-> & _ & _).
    all: rewrite E.
    all: match goal with |- context [esc_seq_hash !! ?i] =>
           let v := eval vm_compute in (esc_seq_hash !! i) in assert (Hl : esc_seq_hash !! i = v) by (by vm_compute); rewrite Hl; clear Hl end.
    all: cbn [from_option id drop length Nat.sub].
    all: lazymatch goal with
         | |- context [strncasecmp_eq (?a :: 59 :: ?t)] => change (a :: 59 :: t) with ([a; 59] ++ t)
         | |- context [strncasecmp_eq (?a :: ?b :: 59 :: ?t)] => change (a :: b :: 59 :: t) with ([a; b; 59] ++ t)
         | |- context [strncasecmp_eq (?a :: ?b :: ?c :: 59 :: ?t)] => change (a :: b :: c :: 59 :: t) with ([a; b; c; 59] ++ t)
         end.
    all: rewrite strncase_ok; [done|done|cbn [map]; by rewrite ?E0, ?E1, ?E2| |done].
    all: repeat (constructor; [intros ->; by vm_compute in E0 || by vm_compute in E1 || by vm_compute in E2 || done|]); repeat constructor; done.
  - destruct (digit_val_range a Ha). cbn [app length]. rewrite rd_mid. cbn [mbind option_bind]. change (negb (38 =? 38)) with false. cbv iota.
    rewrite drop_mid, rd_next. unfold esc_copy_ok. cbn [take existsb]. change (59 =? 59) with true.
    cbn [orb]. rewrite ?orb_true_r. cbn [orb negb mbind option_bind]. change (35 =? 35) with true. cbv iota.
    cbn [scan_xml_code]. rewrite scan_int_one by done. cbn [mbind option_bind fst snd lookup list_lookup]. cbn. by rewrite Z.mod_small by lia.
  - destruct (digit_val_range a Ha), (digit_val_range b Hb). cbn [app length]. rewrite rd_mid. cbn [mbind option_bind]. change (negb (38 =? 38)) with false. cbv iota.
    rewrite drop_mid, rd_next. unfold esc_copy_ok. cbn [take existsb]. change (59 =? 59) with true.
    cbn [orb]. rewrite ?orb_true_r. cbn [orb negb mbind option_bind]. change (35 =? 35) with true. cbv iota.
    cbn [scan_xml_code]. change (a :: b :: 59 :: t) with ([a; b] ++ 59 :: t).
    rewrite (scan_int_ok 16 _ 2 (59 :: t) (digit_val a * 16 + digit_val b)); [|by right|cbn; lia| |cbn; lia|by left|cbn; lia|lia].
    + cbn. by rewrite Z.mod_small by lia.
    + by repeat constructor.
Qed.

Lemma xml_unit_chars u c : xml_unit u c -> Forall (fun x => x <> 60) u /\ (0 < length u)%nat.
Proof.
  intros H. destruct H as [c N1 N2|name lower c Hn Hin|a Ha|a b Ha Hb].
  - split; [by repeat constructor|cbn; lia].
  - split; [|cbn; lia]. constructor; [lia|]. apply Forall_app. split; [|repeat constructor; lia].
    apply Forall_forall. intros x Hx ->. apply (elem_of_list_fmap_1 tolower) in Hx. change (tolower <$> name) with (map tolower name) in Hx.
    rewrite Hn in Hx. rewrite !elem_of_cons, elem_of_nil in Hin.
    destruct Hin as [[= -> ->]|[[= -> ->]|[[= -> ->]|[[= -> ->]|[]]]]]; rewrite !elem_of_cons, elem_of_nil in Hx; cbn in Hx; lia.
  - destruct (digit_val_range a Ha). split; [repeat constructor; lia|cbn; lia].
  - destruct (digit_val_range a Ha), (digit_val_range b Hb). split; [repeat constructor; lia|cbn; lia].
Qed.

Lemma xml_units_loop us cs : Forall2 xml_unit us cs -> forall pre rest f, (length us < f)%nat ->
  xml_loop f (pre ++ concat us ++ rest) (length pre + length (concat us)) (length pre) = Some cs.
Proof.
  induction 1 as [|u c us cs Hu Hus IH]; intros pre rest f Hf; (destruct f as [|f]; [cbn in Hf; lia|]); cbn [xml_loop].
  - destruct (Nat.ltb_spec (length pre) (length pre + length (concat (@nil (list Z))))); [cbn in *; lia|done].
  - cbn [concat]. rewrite app_length. destruct (xml_unit_chars u c Hu) as [_ Hl].
    destruct (Nat.ltb_spec (length pre) (length pre + (length u + length (concat us)))); [|lia].
    rewrite <- app_assoc, (xml_unit_step pre u c) by done. cbn [mbind option_bind fst snd].
    specialize (IH (pre ++ u) rest f ltac:(cbn in Hf; lia)).
    rewrite <- app_assoc, app_length, <- Nat.add_assoc in IH. rewrite IH. done.
Qed.

Lemma xml_units_read us cs rest : Forall2 xml_unit us cs -> xml_read (concat us ++ 60 :: rest) = Some cs.
Proof.
  intros H. unfold xml_read.
  assert (Hc : Forall (fun x => x <> 60) (concat us) /\ (length us <= length (concat us))%nat).
  { induction H as [|u c us cs Hu Hus [IH1 IH2]]; [split; [constructor|done]|]. cbn [concat]. destruct (xml_unit_chars u c Hu).
    split; [by apply Forall_app|]. rewrite app_length. cbn. lia. }
  destruct Hc as [Hc Hl].
  assert (E : forall l, Forall (fun x => x <> 60) l -> xml_content (l ++ 60 :: rest) = l).
  { induction 1 as [|x l Hx Hl' IH]; [done|]. cbn [app xml_content]. rewrite (proj2 (Z.eqb_neq x 60)) by done. by rewrite IH. }
  rewrite E by done. destruct (existsb (Z.eqb 38) (concat us)) eqn:Ex.
  - apply (xml_units_loop us cs H [] (60 :: rest)). lia.
  - f_equal. clear -H Ex. induction H as [|u c us cs Hu Hus IH]; [done|]. cbn [concat] in *. rewrite existsb_app in Ex.
    apply orb_false_elim in Ex as [E1 E2]. rewrite IH by done. by destruct Hu.
Qed.
