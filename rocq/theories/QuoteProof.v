(** Proofs about string and character literals. *)
From Verif Require Import Base NumStr NumStrProof Quote.
Local Open Scope Z_scope.

Definition is_byte (c : Z) : Prop := 0 <= c < 256.

(** ** Tables and digits *)

Lemma esc_cases c : esc_char_map c <> 0 -> c ∈ [7; 8; 9; 10; 11; 12; 13; 92].
Proof.
  intros H. rewrite !elem_of_cons. unfold esc_char_map in H.
  repeat (case_match; try done); auto 20.
Qed.

Lemma unesc_esc c : esc_char_map c <> 0 -> unesc_map (esc_char_map c) = c /\ esc_char_map c <> 10.
Proof.
  intros H. apply esc_cases in H. rewrite !elem_of_cons, elem_of_nil in H.
  by repeat destruct H as [-> |H].
Qed.

Lemma unesc_other c : c ∈ [34; 39; 117; 120; 48; 49; 50; 51; 52; 53; 54; 55] -> unesc_map c = 0.
Proof. intros H. rewrite !elem_of_cons, elem_of_nil in H. by repeat destruct H as [-> |H]. Qed.

Lemma hex_val d : 0 <= d < 16 -> digit_val (hex_char d) = d.
Proof.
  intros H. unfold hex_char, digit_val, isdigit. destruct (Z.ltb_spec d 10).
  - replace ((48 <=? 48 + d) && (48 + d <=? 57)) with true by lia. lia.
  - replace ((48 <=? 87 + d) && (87 + d <=? 57)) with false by lia.
    replace ((97 <=? 87 + d) && (87 + d <=? 102)) with true by lia. lia.
Qed.

Lemma oct_val d : 0 <= d < 8 -> digit_val (48 + d) = d.
Proof. intros H. unfold digit_val, isdigit. replace ((48 <=? 48 + d) && (48 + d <=? 57)) with true by lia. lia. Qed.

Lemma hex_range d : 0 <= d < 16 -> 48 <= hex_char d <= 57 \/ 97 <= hex_char d <= 102.
Proof. intros H. unfold hex_char. destruct (Z.ltb_spec d 10); lia. Qed.

Lemma scan_digits_ok base ds : forall w t acc, Forall (fun c => digit_val c < base) ds -> (length ds <= w)%nat ->
  (length ds = w \/ match t with [] => True | c :: _ => base <= digit_val c end) ->
  scan_digits base w (ds ++ t) acc = (foldl (fun a c => a * base + digit_val c) acc ds, length ds).
Proof.
  induction ds as [|c ds IH]; intros w t acc Hd Hw Ht; cbn [app foldl length].
  - destruct Ht as [<-|Ht]; [done|]. destruct w, t as [|c t]; try done. cbn.
    destruct (Z.ltb_spec (digit_val c) base); [lia|done].
  - cbn [length] in *. destruct w as [|w]; [lia|]. cbn [scan_digits]. apply Forall_cons in Hd as [Hc Hd].
    destruct (Z.ltb_spec (digit_val c) base); [|lia]. rewrite (IH w t); [done|done|lia|].
    destruct Ht; [left; lia|by right].
Qed.

Lemma digit_val_lt c b : digit_val c < b -> b <= 16 ->
  isspace c = false /\ c <> 43 /\ c <> 45 /\ c <> 120 /\ c <> 88 /\ 48 <= c /\ 0 <= digit_val c.
Proof.
  unfold digit_val, isdigit, isspace. intros H Hb.
  destruct ((48 <=? c) && (c <=? 57)) eqn:?; [lia|]. destruct ((97 <=? c) && (c <=? 102)) eqn:?; [lia|].
  destruct ((65 <=? c) && (c <=? 70)) eqn:?; lia.
Qed.

Lemma scan_int_ok base ds w t v :
  base = 8 \/ base = 16 -> (2 <= length ds)%nat -> Forall (fun c => digit_val c < base) ds -> (length ds <= w)%nat ->
  (length ds = w \/ match t with [] => True | c :: _ => base <= digit_val c end) ->
  foldl (fun a c => a * base + digit_val c) 0 ds = v -> 0 <= v < 2 ^ 32 ->
  scan_int base w (ds ++ t) = Some (v, length ds).
Proof.
  intros Hb H2 Hd Hw Ht Hv Hr. unfold scan_int.
  destruct ds as [|a [|b ds]]; cbn [length] in H2; [lia|lia|].
  pose proof Hd as Hd'. apply Forall_cons in Hd' as [Ha Hd']. apply Forall_cons in Hd' as [Hbb _].
  destruct (digit_val_lt a base Ha ltac:(lia)) as (A1 & A2 & A3 & A4 & A5 & _).
  destruct (digit_val_lt b base Hbb ltac:(lia)) as (B1 & B2 & B3 & B4 & B5 & _).
  cbn [app scan_space]. rewrite A1. cbn [drop]. rewrite (proj2 (Z.eqb_neq a 43)), (proj2 (Z.eqb_neq a 45)) by done.
  cbn [orb drop].
  assert (P : (if base =? 16 then match a :: b :: ds ++ t with
      | 48 :: x :: t0 => if ((x =? 120) || (x =? 88)) && Nat.ltb 0 (scan_digits 16 (w - 0 - 2) t0 0).2 then 2%nat else 0%nat
      | _ => 0%nat end else 0%nat) = 0%nat).
  { destruct (base =? 16); [|done]. rewrite (proj2 (Z.eqb_neq b 120)), (proj2 (Z.eqb_neq b 88)) by done. cbn [orb andb].
    repeat case_match; done. }
  rewrite P. cbn [drop]. rewrite !Nat.sub_0_r.
  change (a :: b :: ds ++ t) with ((a :: b :: ds) ++ t). rewrite scan_digits_ok by done. cbn [fst snd]. rewrite Hv.
  cbn [length Nat.eqb]. replace (2 ^ 64 <=? v) with false by lia. rewrite Z.mod_small by lia. done.
Qed.

Lemma scan_int_none c t base w : isspace c = false -> c <> 43 -> c <> 45 -> 16 <= digit_val c -> base = 8 ->
  scan_int base w (c :: t) = None.
Proof.
  intros H1 H2 H3 H4 ->. unfold scan_int. cbn [scan_space]. rewrite H1. cbn [drop].
  rewrite (proj2 (Z.eqb_neq c 43)), (proj2 (Z.eqb_neq c 45)) by done. cbn [orb drop].
  change (8 =? 16) with false. cbn [drop]. destruct (w - 0 - 0)%nat; [done|]. cbn [scan_digits].
  destruct (Z.ltb_spec (digit_val c) 8); [lia|done].
Qed.

(** ** One character *)

(** What follows does not extend the escape: matters for octal escapes only. *)
Definition follow_ok (k : format) (t : list Z) : Prop :=
  match k with CINIT => match t with [] => True | c :: _ => ~ (48 <= c <= 55) end | _ => True end.

Lemma oct_follow c : ~ (48 <= c <= 55) -> 8 <= digit_val c.
Proof.
  intros H. unfold digit_val, isdigit. repeat (case_match; try lia).
Qed.

Lemma pattern_escape k c t : is_byte c -> follow_ok k t ->
  exists e, char_pattern k c = 92 :: e /\ numeric_escape k (e ++ t) = Some (c, (length e - 1)%nat).
Proof.
  intros Hc Ht. unfold is_byte in Hc.
  assert (0 <= c / 16 < 16) by (split; [apply Z.div_pos; lia|apply Z.div_lt_upper_bound; lia]).
  assert (0 <= c mod 16 < 16) by (apply Z.mod_pos_bound; lia).
  pose proof (Z.div_mod c 16 ltac:(lia)).
  destruct k; cbn [char_pattern]; eexists; (split; [reflexivity|]); cbn [app length numeric_escape].
  - change (48 :: 48 :: hex_char (c / 16) :: hex_char (c mod 16) :: t) with ([48; 48; hex_char (c / 16); hex_char (c mod 16)] ++ t).
    rewrite (scan_int_ok 16 _ 4 t c); [|by right|cbn; lia| |cbn; lia|by left| |lia].
    + cbn. rewrite Z.mod_small by lia. done.
    + rewrite !Forall_cons, !hex_val by lia. repeat split; try done; lia.
    + cbn. rewrite !hex_val by lia. change (digit_val 48) with 0. lia.
  - assert (0 <= c / 64 < 8) by (split; [apply Z.div_pos; lia|apply Z.div_lt_upper_bound; lia]).
    assert (0 <= c / 8 mod 8 < 8) by (apply Z.mod_pos_bound; lia).
    assert (0 <= c mod 8 < 8) by (apply Z.mod_pos_bound; lia).
    pose proof (Z.div_mod c 8 ltac:(lia)). pose proof (Z.div_mod (c / 8) 8 ltac:(lia)).
    rewrite Z.div_div in * by lia. change (8 * 8) with 64 in *.
    change (48 + c / 64 :: 48 + c / 8 mod 8 :: 48 + c mod 8 :: t) with ([48 + c / 64; 48 + c / 8 mod 8; 48 + c mod 8] ++ t).
    rewrite (scan_int_ok 8 _ _ t c); [|by left|cbn; lia| |cbn; lia| | |lia].
    + cbn. rewrite Z.mod_small by lia. done.
    + rewrite !Forall_cons, !oct_val by lia. repeat split; try done; lia.
    + right. destruct t as [|x t]; [done|]. by apply oct_follow.
    + cbn. rewrite !oct_val by lia. lia.
  - change (hex_char (c / 16) :: hex_char (c mod 16) :: 59 :: t) with ([hex_char (c / 16); hex_char (c mod 16)] ++ 59 :: t).
    rewrite (scan_int_ok 16 _ _ (59 :: t) c); [|by right|cbn; lia| |cbn; lia|by right| |lia].
    + cbn. rewrite Z.mod_small by lia. done.
    + rewrite !Forall_cons, !hex_val by lia. repeat split; try done; lia.
    + cbn. rewrite !hex_val by lia. lia.
Qed.

(** The three shapes of a quoted character. *)
Lemma quote_cases k ip q c : q = 34 \/ q = 39 ->
  (exists m, quote_char k ip q c = [92; m] /\ ((c = q /\ m = q) \/ (unesc_map m = c /\ c <> 0)) /\ m <> 10) \/
  (quote_char k ip q c = [c] /\ c <> q /\ c <> 92 /\ esc_char_map c = 0 /\ ip c = true) \/
  (quote_char k ip q c = char_pattern k c /\ c <> q /\ c <> 92 /\ esc_char_map c = 0 /\ ip c = false).
Proof.
  intros Hq. unfold quote_char. destruct (Z.eqb_spec c q) as [->|N].
  - left. exists q. destruct Hq as [-> | ->]; cbn; (split; [done|]); (split; [by left|done]).
  - destruct (Z.eqb_spec (esc_char_map c) 0) as [E|E]; cbn [negb].
    + assert (c <> 92) by by intros ->. right. destruct (ip c) eqn:?; [left|right]; done.
    + left. exists (esc_char_map c). split; [done|]. destruct (unesc_esc c E). split; [right; split; [done|]|done].
      by intros ->.
Qed.

Lemma escape_quote_none k q t : q = 34 \/ q = 39 -> numeric_escape k (q :: t) = None /\ unesc_map q = 0.
Proof.
  intros Hq. split; [|apply unesc_other; destruct Hq as [-> | ->]; rewrite !elem_of_cons; auto].
  destruct k; cbn [numeric_escape]; [by destruct Hq as [-> | ->]| |by destruct Hq as [-> | ->]].
  rewrite scan_int_none; [done|..]; destruct Hq as [-> | ->]; done.
Qed.

Lemma drop_mid {A} (pre : list A) t : drop (length pre) (pre ++ t) = t.
Proof. by rewrite drop_app. Qed.

Lemma unquote_step k ip q f pre c t n : q = 34 \/ q = 39 -> is_byte c -> (length pre < n)%nat ->
  (quote_char k ip q c = char_pattern k c -> follow_ok k t) ->
  unquote_loop k (S f) (pre ++ quote_char k ip q c ++ t) n (length pre) =
    (r ← unquote_loop k f (pre ++ quote_char k ip q c ++ t) n (length pre + length (quote_char k ip q c));
     Some (c :: r)).
Proof.
  intros Hq Hc Hn Ht. cbn [unquote_loop]. destruct (Nat.ltb_spec (length pre) n) as [_|]; [|lia].
  destruct (quote_cases k ip q c Hq) as [(m & E & Hm & M10)|[(E & N1 & N2 & _)|(E & N1 & N2 & _)]].
  - rewrite E. cbn [app length]. rewrite rd_mid. cbn [mbind option_bind]. change (92 =? 92) with true. cbv iota.
    assert (R : rd (pre ++ 92 :: m :: t) (S (length pre)) = Some m).
    { unfold rd. rewrite lookup_app_r by lia. by replace (S (length pre) - length pre)%nat with 1%nat by lia. }
    rewrite R. cbn [mbind option_bind].
    assert (D : drop (S (length pre)) (pre ++ 92 :: m :: t) = m :: t).
    { replace (pre ++ 92 :: m :: t) with ((pre ++ [92]) ++ m :: t) by by rewrite <- app_assoc.
      replace (S (length pre)) with (length (pre ++ [92])) by (rewrite app_length; cbn; lia). apply drop_mid. }
    rewrite D. replace (length pre + 2)%nat with (S (S (length pre))) by lia.
    destruct Hm as [[-> ->]|[<- N0]].
    + destruct (escape_quote_none k q t Hq) as [-> ->]. change (0 =? 0) with true. cbn [negb]. done.
    + destruct (Z.eqb_spec (unesc_map m) 0); [done|]. cbn [negb]. done.
  - rewrite E. cbn [app length]. rewrite rd_mid. cbn [mbind option_bind]. rewrite (proj2 (Z.eqb_neq c 92)) by done.
    by replace (length pre + 1)%nat with (S (length pre)) by lia.
  - rewrite E. destruct (pattern_escape k c t Hc (Ht E)) as (e & Ee & Hesc). rewrite Ee. cbn [app length].
    rewrite rd_mid. cbn [mbind option_bind]. change (92 =? 92) with true. cbv iota.
    assert (He : exists e0 e1, e = e0 :: e1 /\ unesc_map e0 = 0).
    { unfold is_byte in Hc. destruct k; cbn in Ee; injection Ee as <-; eexists _, _; (split; [reflexivity|]); try by vm_compute.
      assert (0 <= c / 64 < 4) by (split; [apply Z.div_pos; lia|apply Z.div_lt_upper_bound; lia]).
      apply unesc_other. rewrite !elem_of_cons. lia. }
    destruct He as (e0 & e1 & -> & He0).
    assert (R : rd (pre ++ 92 :: (e0 :: e1) ++ t) (S (length pre)) = Some e0).
    { unfold rd. rewrite lookup_app_r by lia. by replace (S (length pre) - length pre)%nat with 1%nat by lia. }
    rewrite R. cbn [mbind option_bind].
    assert (D : drop (S (length pre)) (pre ++ 92 :: (e0 :: e1) ++ t) = (e0 :: e1) ++ t).
    { replace (pre ++ 92 :: (e0 :: e1) ++ t) with ((pre ++ [92]) ++ (e0 :: e1) ++ t) by by rewrite <- app_assoc.
      replace (S (length pre)) with (length (pre ++ [92])) by (rewrite app_length; cbn; lia). apply drop_mid. }
    rewrite D, Hesc, He0. change (0 =? 0) with true. cbn [negb length].
    by replace (S (S (length pre) + (S (length e1) - 1)))%nat with (length pre + S (S (length e1)))%nat by lia.
Qed.

(** ** Whole strings *)

(** The condition under which octal escapes are safe: a character written as an
    octal escape is not followed by an octal digit. *)
Definition octal_safe (ip : Z -> bool) (s : list Z) : Prop :=
  forall i c d, s !! i = Some c -> s !! S i = Some d ->
    ip c = false -> esc_char_map c = 0 -> c <> 34 -> ip d = true -> ~ (48 <= d <= 55).

Lemma quote_head k ip q c t : q = 34 \/ q = 39 -> exists x u, quote_char k ip q c ++ t = x :: u /\ (x = 92 \/ x = c).
Proof.
  intros Hq. destruct (quote_cases k ip q c Hq) as [(m & E & _)|[(E & _)|(E & _)]]; rewrite E; cbn; eauto.
  destruct k; cbn; eauto.
Qed.

Lemma unquote_ok k ip s : forall pre rest f, Forall is_byte s -> (k = CINIT -> octal_safe ip s) ->
  (length s < f)%nat ->
  let body := concat (map (quote_char k ip 34) s) in
  unquote_loop k f (pre ++ body ++ 34 :: rest) (length pre + length body) (length pre) = Some s.
Proof.
  induction s as [|c s IH]; intros pre rest f Hs Ho Hf body.
  - destruct f; [cbn in Hf; lia|]. subst body. cbn [map concat length unquote_loop]. destruct (Nat.ltb_spec (length pre) (length pre + 0)); [lia|done].
  - destruct f as [|f]; [cbn in Hf; lia|]. apply Forall_cons in Hs as [Hc Hs].
    assert (L : (0 < length (quote_char k ip 34 c))%nat).
    { destruct (quote_head k ip 34 c [] ltac:(by left)) as (x & u & E & _). rewrite app_nil_r in E. rewrite E. cbn. lia. }
    subst body. cbn [map concat]. rewrite <- app_assoc. rewrite unquote_step; [|by left|done|rewrite app_length; lia|].
    + rewrite (app_assoc pre). specialize (IH (pre ++ quote_char k ip 34 c) rest f Hs).
      rewrite !app_length in *. rewrite Nat.add_assoc. rewrite IH; [done| |cbn in Hf; lia].
      intros Hk i a b Ha Hb. exact (Ho Hk (S i) a b Ha Hb).
    + intros E. destruct k; try done. cbn [follow_ok]. specialize (Ho eq_refl).
      destruct s as [|d s]; cbn [map concat app]; [lia|].
      destruct (quote_head CINIT ip 34 d (concat (map (quote_char CINIT ip 34) s) ++ 34 :: rest) ltac:(by left)) as (x & u & Ex & Hx).
      rewrite <- app_assoc, Ex. destruct Hx as [->|Hx]; [lia|].
      destruct (ip d) eqn:Ipd.
      2:{ unfold quote_char in Ex. rewrite Ipd in Ex. subst x. intros Hd.
          assert (esc_char_map d = 0) as Ed.
          { destruct (decide (esc_char_map d = 0)) as [?|Z0]; [done|]. apply esc_cases in Z0.
            rewrite !elem_of_cons, elem_of_nil in Z0. lia. }
          rewrite Ed, (proj2 (Z.eqb_neq d 34)) in Ex by lia. cbn in Ex. injection Ex as Ex _. lia. }
      destruct (quote_cases CINIT ip 34 c ltac:(by left)) as [(m & E' & _)|[(E' & _)|(E' & N1 & N2 & N3 & N4)]].
      * rewrite E in E'. cbn in E'. done.
      * rewrite E in E'. cbn in E'. done.
      * rewrite Hx. by apply (Ho 0%nat c d).
Qed.

Lemma pattern_chars k c : is_byte c -> exists e0 e, char_pattern k c = 92 :: e0 :: e /\ e0 <> 10 /\
  Forall (fun x => x <> 34 /\ x <> 39 /\ x <> 92 /\ 32 < x < 127) (e0 :: e).
Proof.
  intros Hc. unfold is_byte in Hc.
  assert (0 <= c / 16 < 16) by (split; [apply Z.div_pos; lia|apply Z.div_lt_upper_bound; lia]).
  assert (0 <= c mod 16 < 16) by (apply Z.mod_pos_bound; lia).
  assert (0 <= c / 64 < 8) by (split; [apply Z.div_pos; lia|apply Z.div_lt_upper_bound; lia]).
  assert (0 <= c / 8 mod 8 < 8) by (apply Z.mod_pos_bound; lia).
  assert (0 <= c mod 8 < 8) by (apply Z.mod_pos_bound; lia).
  pose proof (hex_range (c / 16) ltac:(lia)). pose proof (hex_range (c mod 16) ltac:(lia)).
  destruct k; cbn; eexists _, _; (split; [reflexivity|]); (split; [lia|]); rewrite !Forall_cons; repeat split; try lia; by constructor.
Qed.

Lemma lex_plain q e t : Forall (fun x => x <> q /\ x <> 92) e ->
  lex_literal q (e ++ t) = (r ← lex_literal q t; Some (e ++ r.1, r.2)).
Proof.
  induction e as [|x e IH]; intros H; cbn [app].
  - by destruct (lex_literal q t) as [[? ?]|].
  - apply Forall_cons in H as [[N1 N2] H]. cbn [lex_literal].
    rewrite (proj2 (Z.eqb_neq x q)), (proj2 (Z.eqb_neq x 92)) by done. rewrite IH by done.
    by destruct (lex_literal q t) as [[? ?]|].
Qed.

Lemma lex_char k ip q c t : q = 34 \/ q = 39 -> is_byte c ->
  lex_literal q (quote_char k ip q c ++ t) = (r ← lex_literal q t; Some (quote_char k ip q c ++ r.1, r.2)).
Proof.
  intros Hq Hc. destruct (quote_cases k ip q c Hq) as [(m & E & Hm & M10)|[(E & N1 & N2 & _)|(E & N1 & N2 & _)]]; rewrite E.
  - cbn [app lex_literal]. rewrite (proj2 (Z.eqb_neq 92 q)) by lia. change (92 =? 92) with true. cbv iota.
    rewrite (proj2 (Z.eqb_neq m 10)) by done. done.
  - apply lex_plain. by constructor.
  - destruct (pattern_chars k c Hc) as (e0 & e & -> & N & Hf). cbn [app lex_literal].
    rewrite (proj2 (Z.eqb_neq 92 q)) by lia. change (92 =? 92) with true. cbv iota.
    rewrite (proj2 (Z.eqb_neq e0 10)) by done. apply Forall_cons in Hf as [_ Hf].
    rewrite lex_plain. 2:{ eapply Forall_impl; [exact Hf|]. intros x. cbn. intros. split; [|lia]. destruct Hq as [-> | ->]; lia. }
    by destruct (lex_literal q t) as [[? ?]|].
Qed.

Lemma lex_string k ip s rest : Forall is_byte s ->
  lex_literal 34 (concat (map (quote_char k ip 34) s) ++ 34 :: rest) = Some (concat (map (quote_char k ip 34) s), rest).
Proof.
  induction s as [|c s IH]; intros H; cbn [map concat app lex_literal]; [done|]. apply Forall_cons in H as [Hc H].
  rewrite <- app_assoc, lex_char by (auto; by left). rewrite IH by done. done.
Qed.

Lemma no_backslash k ip s : existsb (Z.eqb 92) (concat (map (quote_char k ip 34) s)) = false ->
  concat (map (quote_char k ip 34) s) = s.
Proof.
  induction s as [|c s IH]; intros H; [done|]. cbn [map concat] in *. rewrite existsb_app in H. apply orb_false_elim in H as [H1 H2].
  rewrite (IH H2). destruct (quote_cases k ip 34 c ltac:(by left)) as [(m & E & _)|[(E & _)|(E & _)]]; rewrite E in *.
  - done.
  - done.
  - by destruct k.
Qed.

Lemma quoted_length k ip s : (length s <= length (concat (map (quote_char k ip 34) s)))%nat.
Proof.
  induction s as [|c s IH]; cbn [map concat length]; [lia|]. rewrite app_length.
  destruct (quote_head k ip 34 c [] ltac:(by left)) as (x & u & E & _). rewrite app_nil_r in E. rewrite E. cbn. lia.
Qed.

Lemma read_quoted k ip s rest : Forall is_byte s -> (k = CINIT -> octal_safe ip s) ->
  read_string k (quote_string k ip s ++ rest) = Some (s, rest).
Proof.
  intros Hs Ho. unfold read_string, quote_string. cbn [app]. rewrite <- app_assoc. cbn [app].
  rewrite lex_string by done. cbn [mbind option_bind fst snd].
  destruct (existsb (Z.eqb 92) (concat (map (quote_char k ip 34) s))) eqn:E.
  - pose proof (unquote_ok k ip s [] rest (S (length (concat (map (quote_char k ip 34) s)))) Hs Ho) as U.
    cbn [app length] in U. cbv zeta in U. cbn [Nat.add] in U.
    rewrite U; [done|]. pose proof (quoted_length k ip s). lia.
  - by rewrite no_backslash.
Qed.

Lemma quoted_chars k ip s : Forall is_byte s ->
  Forall (fun x => ip x = true \/ 32 < x < 127) (quote_string k ip s).
Proof.
  intros Hs. unfold quote_string. apply Forall_cons. split; [right; lia|]. apply Forall_app. split; [|constructor; [right; lia|constructor]].
  induction Hs as [|c s Hc Hs IH]; cbn [map concat]; [constructor|]. apply Forall_app. split; [|done].
  destruct (quote_cases k ip 34 c ltac:(by left)) as [(m & E & Hm & _)|[(E & _ & _ & _ & P)|(E & _)]]; rewrite E.
  - unfold quote_char in E. destruct (Z.eqb_spec c 34) as [->|]; [cbn in E; assert (m = 34) as -> by congruence; constructor; [right; lia|constructor; [right; lia|constructor]]|].
    destruct (Z.eqb_spec (esc_char_map c) 0) as [E0|E0]; cbn [negb] in E.
    + destruct (ip c); [done|]. destruct k; cbn in E; simplify_eq.
    + assert (m = esc_char_map c) as -> by congruence. apply esc_cases in E0.
      constructor; [right; lia|]. constructor; [|constructor].
      rewrite !elem_of_cons, elem_of_nil in E0. right. repeat destruct E0 as [-> |E0]; cbn; try lia; done.
  - constructor; [by left|constructor].
  - destruct (pattern_chars k c Hc) as (e0 & e & -> & _ & Hf). constructor; [right; lia|].
    eapply Forall_impl; [exact Hf|]. cbn. intros; right; lia.
Qed.

(** ** Safety on any text *)

Lemma unquote_safe k : forall f s n i, (n < length s)%nat -> (n - i < f)%nat ->
  exists r, unquote_loop k f s n i = Some r /\ (length r <= n - i)%nat.
Proof.
  induction f as [|f IH]; intros s n i Hn Hf; [lia|]. cbn [unquote_loop].
  destruct (Nat.ltb_spec i n); [|exists []; cbn; split; [done|lia]].
  assert (Rec : forall j c, (i < j)%nat -> exists r, (r ← unquote_loop k f s n j; Some (c :: r)) = Some r /\ (length r <= n - i)%nat).
  { intros j c Hj. destruct (decide (j < n)%nat).
    - destruct (IH s n j Hn ltac:(lia)) as (r & E & L). exists (c :: r). rewrite E. cbn. split; [done|lia].
    - destruct (IH s n j Hn ltac:(lia)) as (r & E & L). exists (c :: r). rewrite E. cbn. split; [done|lia]. }
  destruct (rd_Some s i ltac:(lia)) as (ch & ->). cbn [mbind option_bind]. destruct (ch =? 92); [|apply Rec; lia].
  destruct (rd_Some s (S i) ltac:(lia)) as (e & ->). cbn [mbind option_bind]. destruct (negb _); [apply Rec; lia|].
  destruct (numeric_escape k (drop (S i) s)) as [[c adv]|]; apply Rec; lia.
Qed.

(** ** Characters *)

Lemma cinit_char_ok ip c rest : is_byte c -> cinit_read_char (cinit_print_char ip c ++ rest) = Some (c, rest).
Proof.
  intros Hc. unfold cinit_read_char, cinit_print_char. cbn [app]. rewrite <- app_assoc.
  rewrite lex_char by (auto; by right). cbn [app lex_literal]. change (39 =? 39) with true. cbv iota.
  cbn [mbind option_bind fst snd]. rewrite app_nil_r.
  assert (L : (1 <= length (quote_char CINIT ip 39 c) <= 4)%nat).
  { destruct (quote_cases CINIT ip 39 c ltac:(by right)) as [(m & -> & _)|[(-> & _)|(-> & _)]]; cbn; lia. }
  destruct (Nat.ltb_spec 5 (length (quote_char CINIT ip 39 c))); [lia|].
  pose proof (unquote_step CINIT ip 39 (length (quote_char CINIT ip 39 c)) [] c (0 :: rest) (length (quote_char CINIT ip 39 c))) as U.
  cbn [app length Nat.add] in U. rewrite U; [|by right|done|lia|intros _; cbn; lia].
  destruct (length (quote_char CINIT ip 39 c)) as [|n] eqn:En; [lia|]. cbn [unquote_loop].
  destruct (Nat.ltb_spec (S n) (S n)); [lia|]. cbn [mbind option_bind c_string].
  destruct (Z.eqb_spec c 0) as [->|]; cbn; done.
Qed.

Lemma scm_char_ok ip c rest : is_byte c -> ip 10 = false ->
  match rest with [] => True | x :: _ => isxdigit x = false end ->
  scm_read_char (scm_print_char ip c ++ rest) = Some (c, rest).
Proof.
  intros Hc Hp Hr. unfold scm_print_char. destruct (ip c) eqn:E; cbn [app scm_read_char].
  - destruct (Z.eqb_spec c 10); [congruence|]. destruct (Z.eqb_spec c 120); [|done].
    destruct rest as [|x [|y rest]]; [done|done|]. rewrite Hr. done.
  - change (120 =? 120) with true. cbv iota. unfold is_byte in Hc.
    assert (0 <= c / 16 < 16) by (split; [apply Z.div_pos; lia|apply Z.div_lt_upper_bound; lia]).
    assert (0 <= c mod 16 < 16) by (apply Z.mod_pos_bound; lia).
    pose proof (Z.div_mod c 16 ltac:(lia)).
    pose proof (hex_range (c / 16) ltac:(lia)). pose proof (hex_range (c mod 16) ltac:(lia)).
    replace (isxdigit (hex_char (c / 16)) && isxdigit (hex_char (c mod 16))) with true by (unfold isxdigit, isdigit; lia).
    pose proof (scan_int_ok 16 [hex_char (c / 16); hex_char (c mod 16)] 2 [] c) as S. rewrite app_nil_r in S.
    rewrite S; [|by right|cbn; lia| |cbn; lia|by left| |lia].
    + cbn [mbind option_bind fst]. by rewrite Z.mod_small by lia.
    + rewrite !Forall_cons, !hex_val by lia. repeat split; try lia. constructor.
    + cbn. rewrite !hex_val by lia. lia.
Qed.

(** ** Octal escapes: the condition is necessary *)

(** Number of leading octal digits. *)
Fixpoint oct_run (t : list Z) : nat :=
  match t with c :: t => if decide (48 <= c <= 55) then S (oct_run t) else 0%nat | [] => 0%nat end.

Lemma scan_digits_count t : forall w acc, (oct_run t <= w)%nat -> (scan_digits 8 w t acc).2 = oct_run t.
Proof.
  induction t as [|c t IH]; intros w acc Hw; [by destruct w|]. cbn [oct_run] in *.
  case_decide as Hc.
  - destruct w as [|w]; [lia|]. cbn [scan_digits].
    replace (digit_val c) with (c - 48). 2:{ unfold digit_val, isdigit. replace ((48 <=? c) && (c <=? 57)) with true by lia. done. }
    destruct (Z.ltb_spec (c - 48) 8); [|lia]. cbn [snd]. rewrite IH by lia. done.
  - destruct w as [|w]; [done|]. cbn [scan_digits]. apply oct_follow in Hc.
    destruct (Z.ltb_spec (digit_val c) 8); [lia|done].
Qed.

Lemma oct_run_length t : (oct_run t <= length t)%nat.
Proof. induction t; cbn; [lia|]. case_decide; lia. Qed.

Lemma cinit_pattern_run c t : is_byte c ->
  exists e v, char_pattern CINIT c = 92 :: e /\ length e = 3%nat /\ numeric_escape CINIT (e ++ t) = Some (v, (2 + oct_run t)%nat).
Proof.
  intros Hc. unfold is_byte in Hc. cbn [char_pattern numeric_escape].
  assert (0 <= c / 64 < 8) by (split; [apply Z.div_pos; lia|apply Z.div_lt_upper_bound; lia]).
  assert (0 <= c / 8 mod 8 < 8) by (apply Z.mod_pos_bound; lia).
  assert (0 <= c mod 8 < 8) by (apply Z.mod_pos_bound; lia).
  set (a := 48 + c / 64). set (b := 48 + c / 8 mod 8). set (d := 48 + c mod 8).
  assert (48 <= a <= 55) by lia. assert (48 <= b <= 55) by lia. assert (48 <= d <= 55) by lia. clearbody a b d.
  exists [a; b; d]. unfold scan_int. cbn [app scan_space].
  replace (isspace a) with false by (unfold isspace; lia). cbn [drop].
  rewrite (proj2 (Z.eqb_neq a 43)), (proj2 (Z.eqb_neq a 45)) by lia. cbn [orb drop]. change (8 =? 16) with false. cbv iota. cbn [drop].
  rewrite !Nat.sub_0_r.
  assert (R : oct_run (a :: b :: d :: t) = (3 + oct_run t)%nat) by (cbn [oct_run]; rewrite !decide_True by lia; done).
  rewrite scan_digits_count by apply oct_run_length. rewrite R. cbn [Nat.add Nat.eqb mbind option_bind fst snd].
  eexists. split; [done|]. split; [done|]. reflexivity.
Qed.

Lemma unquote_pattern f ip pre c t n : is_byte c -> (length pre < n)%nat -> quote_char CINIT ip 34 c = char_pattern CINIT c ->
  exists v, unquote_loop CINIT (S f) (pre ++ quote_char CINIT ip 34 c ++ t) n (length pre) =
    (r ← unquote_loop CINIT f (pre ++ quote_char CINIT ip 34 c ++ t) n (length pre + 4 + oct_run t); Some (v :: r)).
Proof.
  intros Hc Hn E. cbn [unquote_loop]. destruct (Nat.ltb_spec (length pre) n) as [_|]; [|lia].
  rewrite E. destruct (cinit_pattern_run c t Hc) as (e & v & Ee & Le & Hesc). rewrite Ee. cbn [app].
  rewrite rd_mid. cbn [mbind option_bind]. change (92 =? 92) with true. cbv iota.
  assert (He : exists e0 e1, e = e0 :: e1 /\ unesc_map e0 = 0).
  { unfold is_byte in Hc. cbn in Ee; injection Ee as <-; eexists _, _; (split; [reflexivity|]).
    assert (0 <= c / 64 < 4) by (split; [apply Z.div_pos; lia|apply Z.div_lt_upper_bound; lia]).
    apply unesc_other. rewrite !elem_of_cons. lia. }
  destruct He as (e0 & e1 & -> & He0).
  assert (R : rd (pre ++ 92 :: (e0 :: e1) ++ t) (S (length pre)) = Some e0).
  { unfold rd. rewrite lookup_app_r by lia. by replace (S (length pre) - length pre)%nat with 1%nat by lia. }
  rewrite R. cbn [mbind option_bind].
  assert (D : drop (S (length pre)) (pre ++ 92 :: (e0 :: e1) ++ t) = (e0 :: e1) ++ t).
  { replace (pre ++ 92 :: (e0 :: e1) ++ t) with ((pre ++ [92]) ++ (e0 :: e1) ++ t) by by rewrite <- app_assoc.
    replace (S (length pre)) with (length (pre ++ [92])) by (rewrite app_length; cbn; lia). apply drop_mid. }
  rewrite D, Hesc, He0. change (0 =? 0) with true. cbn [negb]. exists v.
  by replace (S (S (length pre) + (2 + oct_run t)))%nat with (length pre + 4 + oct_run t)%nat by lia.
Qed.

(** The digits swallowed by an octal escape are whole characters of the string. *)
Lemma oct_run_units ip s rest : Forall is_byte s -> exists ds s', s = ds ++ s' /\
  concat (map (quote_char CINIT ip 34) ds) = ds /\ oct_run (concat (map (quote_char CINIT ip 34) s) ++ 34 :: rest) = length ds /\
  (ds = [] -> forall d, head s = Some d -> ip d = true -> ~ (48 <= d <= 55)).
Proof.
  induction s as [|c s IH]; intros Hs.
  - exists [], []. repeat split. by intros.
  - apply Forall_cons in Hs as [Hc Hs]. destruct (IH Hs) as (ds & s' & -> & H1 & H2 & _). cbn [map concat].
    destruct (decide (48 <= c <= 55)) as [Hd|Hd].
    + destruct (ip c) eqn:Ip.
      * assert (E : quote_char CINIT ip 34 c = [c]).
        { destruct (quote_cases CINIT ip 34 c ltac:(by left)) as [(m & E & Hm & _)|[(E & _)|(E & _ & _ & _ & ?)]]; [|done|congruence].
          exfalso. unfold quote_char in E. rewrite Ip, (proj2 (Z.eqb_neq c 34)) in E by lia.
          destruct (Z.eqb_spec (esc_char_map c) 0) as [?|Z0]; [done|]. apply esc_cases in Z0. rewrite !elem_of_cons, elem_of_nil in Z0. lia. }
        exists (c :: ds), s'. rewrite E. cbn [map concat app oct_run length]. rewrite E, H1. rewrite decide_True by done.
        repeat split; [|done]. rewrite <- H2. done.
      * exists [], (c :: ds ++ s'). repeat split.
        -- destruct (quote_head CINIT ip 34 c (concat (map (quote_char CINIT ip 34) (ds ++ s')) ++ 34 :: rest) ltac:(by left)) as (x & u & E & Hx).
           rewrite <- app_assoc, E. cbn [oct_run length]. rewrite decide_False; [done|].
           destruct Hx as [-> | ->]; [lia|]. exfalso. unfold quote_char in E. rewrite Ip, (proj2 (Z.eqb_neq c 34)) in E by lia.
           destruct (Z.eqb_spec (esc_char_map c) 0); cbn in E; injection E as E _; lia.
        -- cbn. intros _ d [= <-]. congruence.
    + exists [], (c :: ds ++ s'). repeat split.
      * destruct (quote_head CINIT ip 34 c (concat (map (quote_char CINIT ip 34) (ds ++ s')) ++ 34 :: rest) ltac:(by left)) as (x & u & E & Hx).
        rewrite <- app_assoc, E. cbn [oct_run length]. rewrite decide_False; [done|]. destruct Hx as [-> | ->]; lia.
      * cbn. by intros _ d [= <-].
Qed.

Lemma unquote_shorter ip m : forall s pre rest f, (length s <= m)%nat -> Forall is_byte s -> (length s < f)%nat ->
  let body := concat (map (quote_char CINIT ip 34) s) in
  exists r, unquote_loop CINIT f (pre ++ body ++ 34 :: rest) (length pre + length body) (length pre) = Some r /\
    (length r <= length s)%nat /\ (length r = length s -> octal_safe ip s).
Proof.
  induction m as [|m IH]; intros s pre rest f Hm Hs Hf body.
  { destruct s; [|cbn in Hm; lia]. exists []. destruct f; [cbn in Hf; lia|]. subst body. cbn [map concat length unquote_loop].
    destruct (Nat.ltb_spec (length pre) (length pre + 0)); [lia|]. repeat split; [done|]. by intros _ i c d. }
  destruct s as [|c s].
  { exists []. destruct f; [cbn in Hf; lia|]. subst body. cbn [map concat length unquote_loop].
    destruct (Nat.ltb_spec (length pre) (length pre + 0)); [lia|]. repeat split; [done|]. by intros _ i c d. }
  apply Forall_cons in Hs as [Hc Hs]. destruct f as [|f]; [lia|]. cbn [length] in Hm, Hf.
  assert (L : (0 < length (quote_char CINIT ip 34 c))%nat).
  { destruct (quote_head CINIT ip 34 c [] ltac:(by left)) as (x & u & E & _). rewrite app_nil_r in E. rewrite E. cbn. lia. }
  subst body. cbn [map concat]. rewrite <- app_assoc.
  destruct (quote_cases CINIT ip 34 c ltac:(by left)) as [(m' & E & _ & _)|[(E & _ & _ & _ & Ip)|(E & N1 & N2 & N3 & N4)]].
  3:{ destruct (unquote_pattern f ip pre c (concat (map (quote_char CINIT ip 34) s) ++ 34 :: rest)
         (length pre + length (quote_char CINIT ip 34 c ++ concat (map (quote_char CINIT ip 34) s))) Hc ltac:(rewrite app_length; lia) E) as (v & U).
      rewrite U. destruct (oct_run_units ip s rest Hs) as (ds & s' & -> & Eds & Er & Hnil). rewrite Er. clear U Er.
      apply Forall_app in Hs as [_ Hs']. rewrite app_length in Hm, Hf.
      assert (L4 : length (quote_char CINIT ip 34 c) = 4%nat) by by rewrite E.
      destruct (IH s' (pre ++ quote_char CINIT ip 34 c ++ ds) rest f ltac:(lia) Hs' ltac:(lia)) as (r & Er & Lr & Sr).
      rewrite map_app, concat_app, Eds. rewrite !app_length in *. rewrite <- !app_assoc in *. rewrite L4 in *.
      replace (length pre + 4 + length ds)%nat with (length pre + (4 + length ds))%nat by lia.
      rewrite <- Nat.add_assoc in Er. replace (4 + length ds + length (concat (map (quote_char CINIT ip 34) s')))%nat
        with (4 + (length ds + length (concat (map (quote_char CINIT ip 34) s'))))%nat in Er by lia.
      rewrite Er. cbn [mbind option_bind]. eexists. split; [done|]. cbn [length]. rewrite app_length. split; [lia|].
      intros El. assert (ds = []) as -> by (destruct ds; [done|cbn in *; lia]). cbn [app length] in *.
      specialize (Sr ltac:(lia)). intros i a b Ha Hb. destruct i as [|i]; [|by apply (Sr i)].
      cbn in Ha, Hb. injection Ha as <-. intros _ _ _ Hb'. apply (Hnil eq_refl b); [|done]. by destruct s'. }
  all: assert (Np : quote_char CINIT ip 34 c <> char_pattern CINIT c) by (rewrite E; done).
  all: rewrite unquote_step; [|by left|done|rewrite app_length; lia|intros ?; done].
  all: destruct (IH s (pre ++ quote_char CINIT ip 34 c) rest f ltac:(lia) Hs ltac:(lia)) as (r & Er & Lr & Sr);
    rewrite <- !app_assoc in Er; rewrite !app_length in *; rewrite <- Nat.add_assoc in Er; rewrite Er;
    cbn [mbind option_bind]; eexists; (split; [done|]); cbn [length]; (split; [lia|]); intros El; specialize (Sr ltac:(lia));
    intros i a b Ha Hb; (destruct i as [|i]; [|by apply (Sr i)]); cbn in Ha; injection Ha as <-.
  - intros I1 I2 I3. exfalso. unfold quote_char in Np. rewrite I1, I2, (proj2 (Z.eqb_neq c 34)) in Np by done. done.
  - congruence.
Qed.

Lemma cinit_exact ip s rest : Forall is_byte s ->
  (read_string CINIT (quote_string CINIT ip s ++ rest) = Some (s, rest) <-> octal_safe ip s).
Proof.
  intros Hs. split; [|intros Ho; by apply read_quoted].
  unfold read_string, quote_string. cbn [app]. rewrite <- app_assoc. cbn [app].
  rewrite lex_string by done. cbn [mbind option_bind fst snd].
  destruct (existsb (Z.eqb 92) (concat (map (quote_char CINIT ip 34) s))) eqn:E.
  - destruct (unquote_shorter ip (length s) s [] rest (S (length (concat (map (quote_char CINIT ip 34) s)))) ltac:(lia) Hs) as (r & U & _ & Sr).
    { pose proof (quoted_length CINIT ip s). lia. }
    cbn [app length Nat.add] in U. rewrite U. cbn [mbind option_bind]. intros [= ->]. by apply Sr.
  - intros _ i c d Hi Hd Ip Ec Nc. exfalso. apply Bool.not_true_iff_false in E. apply E. apply existsb_exists. exists 92. split; [|done].
    apply in_concat. exists (quote_char CINIT ip 34 c). split.
    + apply in_map, elem_of_list_In. by eapply elem_of_list_lookup_2.
    + unfold quote_char. rewrite Ip, Ec, (proj2 (Z.eqb_neq c 34)) by done. cbn. by left.
Qed.
