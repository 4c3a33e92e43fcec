(** UTF-8, bit text and flags: the model's loops against the specification. *)

From Verif Require Import GoBase SpecNum ProofsBase ModelTools ProofsTools ModelVal ModelRegistry ModelDecode ModelEncode
  ProofsRun SpecScale ProofsReads.

(** ** UTF-8 *)
Lemma conts1 lo hi x r : (lo <= bZ x <= hi) -> utf8_conts 1 lo hi (x :: r) = Some r.
Proof. intros H. cbn [utf8_conts]. now replace ((lo <=? bZ x) && (bZ x <=? hi)) with true by lia. Qed.
Lemma conts_inv n lo hi b r : utf8_conts (S n) lo hi b = Some r -> exists x b', b = x :: b' /\ lo <= bZ x <= hi /\ utf8_conts n 128 191 b' = Some r.
Proof. cbn [utf8_conts]. destruct b as [|x b']; [discriminate|]. destruct ((lo <=? bZ x) && (bZ x <=? hi)) eqn:C; [|discriminate]. intros H. exists x, b'. split; [reflexivity|]. split; [lia|exact H]. Qed.

(** One character at a time. *)
Lemma utf8_step f c b : scalar c -> utf8_valid_fuel (S f) (utf8_char c ++ b) = utf8_valid_fuel f b.
Proof.
  intros C. unfold utf8_char. destruct (Z.ltb_spec c 128) as [L1|L1].
  { cbn [map app utf8_valid_fuel]. rewrite bZ_Zb_small by (destruct C; lia). now replace (c <? 128) with true by lia. }
  destruct (Z.ltb_spec c 0x800) as [L2|L2].
  { cbn [map app utf8_valid_fuel]. rewrite bZ_Zb_small by (clear C; lia).
    replace (192 + c / 64 <? 128) with false by lia. replace ((194 <=? 192 + c / 64) && (192 + c / 64 <=? 223)) with true by (clear C; lia).
    now rewrite conts1 by (rewrite bZ_Zb_small; clear C; lia). }
  destruct (Z.ltb_spec c 0x10000) as [L3|L3].
  { cbn [map app utf8_valid_fuel]. set (a := c / 4096). set (m := c / 64 mod 64). set (n := c mod 64).
    assert (B : 0 <= a <= 15 /\ 0 <= m < 64 /\ 0 <= n < 64 /\ (a = 0 -> 32 <= m) /\ (a = 13 -> m < 32)) by (unfold a, m, n; destruct C; repeat split; lia).
    clearbody a m n. clear C. rewrite bZ_Zb_small by lia.
    assert (X : forall lo hi, lo <= 128 + m <= hi -> utf8_conts 2 lo hi (Zb (128 + m) :: Zb (128 + n) :: b) = Some b).
    { intros lo hi H. cbn [utf8_conts]. rewrite !bZ_Zb_small by lia. replace ((lo <=? 128 + m) && (128 + m <=? hi)) with true by lia. now replace ((128 <=? 128 + n) && (128 + n <=? 191)) with true by lia. }
    replace (224 + a <? 128) with false by lia. replace ((194 <=? 224 + a) && (224 + a <=? 223)) with false by lia.
    destruct (Z.eqb_spec (224 + a) 224); [now rewrite X by lia|]. destruct (Z.eqb_spec (224 + a) 237); [now rewrite X by lia|].
    replace ((225 <=? 224 + a) && (224 + a <=? 239)) with true by lia. now rewrite X by lia. }
  cbn [map app utf8_valid_fuel]. set (a := c / 262144). set (m := c / 4096 mod 64). set (n := c / 64 mod 64). set (k := c mod 64).
  assert (B : 0 <= a <= 4 /\ 0 <= m < 64 /\ 0 <= n < 64 /\ 0 <= k < 64 /\ (a = 0 -> 16 <= m) /\ (a = 4 -> m < 16)) by (unfold a, m, n, k; destruct C; repeat split; lia).
  clearbody a m n k. clear C. rewrite bZ_Zb_small by lia.
  assert (X : forall lo hi, lo <= 128 + m <= hi -> utf8_conts 3 lo hi (Zb (128 + m) :: Zb (128 + n) :: Zb (128 + k) :: b) = Some b).
  { intros lo hi H. cbn [utf8_conts]. rewrite !bZ_Zb_small by lia. replace ((lo <=? 128 + m) && (128 + m <=? hi)) with true by lia.
    replace ((128 <=? 128 + n) && (128 + n <=? 191)) with true by lia. now replace ((128 <=? 128 + k) && (128 + k <=? 191)) with true by lia. }
  replace (240 + a <? 128) with false by lia. replace ((194 <=? 240 + a) && (240 + a <=? 223)) with false by lia.
  replace (240 + a =? 224) with false by lia. replace (240 + a =? 237) with false by lia. replace ((225 <=? 240 + a) && (240 + a <=? 239)) with false by lia.
  destruct (Z.eqb_spec (240 + a) 240); [now rewrite X by lia|]. destruct ((241 <=? 240 + a) && (240 + a <=? 243)) eqn:Q; [now rewrite X by lia|].
  replace (240 + a =? 244) with true by lia. now rewrite X by lia.
Qed.
Lemma utf8_more f : forall f' b, (f <= f')%nat -> utf8_valid_fuel f b = true -> utf8_valid_fuel f' b = true.
Proof.
  induction f as [|f IH]; intros f' b L H; destruct b as [|x b]; try (destruct f'; reflexivity); [discriminate H|]. destruct f' as [|f']; [lia|]. cbn [utf8_valid_fuel] in *.
  assert (G : forall n lo hi, match utf8_conts n lo hi b with Some r' => utf8_valid_fuel f r' | None => false end = true ->
    match utf8_conts n lo hi b with Some r' => utf8_valid_fuel f' r' | None => false end = true).
  { intros n lo hi. destruct (utf8_conts n lo hi b); [apply IH; lia|discriminate]. }
  repeat match goal with |- (if ?c then _ else _) = true => destruct c; [first [now apply G|apply IH; [lia|exact H]]|] end. exact H.
Qed.
Lemma utf8_char_len c : (1 <= List.length (utf8_char c))%nat.
Proof. unfold utf8_char. rewrite map_length. repeat match goal with |- context [if ?c then _ else _] => destruct c end; cbn; lia. Qed.
Lemma utf8_enough l : Forall scalar l -> utf8_valid_fuel (List.length l) (List.concat (map utf8_char l)) = true.
Proof. induction 1 as [|c l C _ IH]; [reflexivity|]. cbn [List.length map List.concat]. now rewrite utf8_step. Qed.
Lemma utf8_char_1 x : bZ x < 128 -> scalar (bZ x) /\ utf8_char (bZ x) = [x].
Proof. intros H. pose proof (bZ_range x). split; [left; lia|]. unfold utf8_char. replace (bZ x <? 128) with true by lia. cbn [map]. now rewrite Zb_bZ. Qed.
Lemma utf8_char_2 x y : 194 <= bZ x <= 223 -> 128 <= bZ y <= 191 -> let c := (bZ x - 192) * 64 + (bZ y - 128) in scalar c /\ utf8_char c = [x; y].
Proof.
  intros X Y c. set (a := bZ x - 192) in c. set (b := bZ y - 128) in c. assert (A : 2 <= a <= 31 /\ 0 <= b < 64) by (unfold a, b; lia).
  assert (Q : c / 64 = a /\ c mod 64 = b) by (clearbody a b; unfold c; lia). split; [left; unfold c; clear Q; lia|].
  unfold utf8_char. replace (c <? 128) with false by (unfold c; clear Q; lia). replace (c <? 2048) with true by (unfold c; clear Q; lia).
  destruct Q as [-> ->]. cbn [map]. unfold a, b. rewrite !Zplus_minus. now rewrite !Zb_bZ.
Qed.
Lemma utf8_char_3 x y z : 224 <= bZ x <= 239 -> 128 <= bZ y <= 191 -> 128 <= bZ z <= 191 -> (bZ x = 224 -> 160 <= bZ y) -> (bZ x = 237 -> bZ y <= 159) ->
  let c := (bZ x - 224) * 4096 + (bZ y - 128) * 64 + (bZ z - 128) in scalar c /\ utf8_char c = [x; y; z].
Proof.
  intros X Y Z E0 ED c. set (a := bZ x - 224) in c. set (b := bZ y - 128) in c. set (d := bZ z - 128) in c.
  assert (A : 0 <= a <= 15 /\ 0 <= b < 64 /\ 0 <= d < 64 /\ (a = 0 -> 32 <= b) /\ (a = 13 -> b < 32)) by (unfold a, b, d; lia).
  assert (Q : c / 4096 = a /\ c / 64 mod 64 = b /\ c mod 64 = d) by (clearbody a b d; clear E0 ED; unfold c; lia).
  assert (R : 0x800 <= c < 0x10000) by (unfold c; clear Q; clearbody a b d; lia).
  split; [unfold scalar; clear Q; destruct (Z.lt_ge_cases c 0xd800); [left; lia|right; split; [|lia]]; unfold c in *; clearbody a b d; lia|].
  unfold utf8_char. replace (c <? 128) with false by (clear Q; lia). replace (c <? 2048) with false by (clear Q; lia). replace (c <? 65536) with true by (clear Q; lia).
  destruct Q as (-> & -> & ->). cbn [map]. unfold a, b, d. rewrite !Zplus_minus. now rewrite !Zb_bZ.
Qed.
Lemma utf8_char_4 x y z w : 240 <= bZ x <= 244 -> 128 <= bZ y <= 191 -> 128 <= bZ z <= 191 -> 128 <= bZ w <= 191 -> (bZ x = 240 -> 144 <= bZ y) -> (bZ x = 244 -> bZ y <= 143) ->
  let c := (bZ x - 240) * 262144 + (bZ y - 128) * 4096 + (bZ z - 128) * 64 + (bZ w - 128) in scalar c /\ utf8_char c = [x; y; z; w].
Proof.
  intros X Y Z W E0 ED c. set (a := bZ x - 240) in c. set (b := bZ y - 128) in c. set (d := bZ z - 128) in c. set (e := bZ w - 128) in c.
  assert (A : 0 <= a <= 4 /\ 0 <= b < 64 /\ 0 <= d < 64 /\ 0 <= e < 64 /\ (a = 0 -> 16 <= b) /\ (a = 4 -> b < 16)) by (unfold a, b, d, e; lia).
  assert (Q : c / 262144 = a /\ c / 4096 mod 64 = b /\ c / 64 mod 64 = d /\ c mod 64 = e) by (clearbody a b d e; clear E0 ED; unfold c; lia).
  assert (R : 0x10000 <= c < 0x110000) by (unfold c; clear Q; clearbody a b d e; lia).
  split; [right; clear Q; lia|].
  unfold utf8_char. replace (c <? 128) with false by (clear Q; lia). replace (c <? 2048) with false by (clear Q; lia). replace (c <? 65536) with false by (clear Q; lia).
  destruct Q as (-> & -> & -> & ->). cbn [map]. unfold a, b, d, e. rewrite !Zplus_minus. now rewrite !Zb_bZ.
Qed.
Lemma utf8_sound f : forall b, utf8_valid_fuel f b = true -> utf8 b.
Proof.
  induction f as [|f IH]; intros b H; destruct b as [|x b]; try (exists []; split; [constructor|reflexivity]); [discriminate H|]. cbn [utf8_valid_fuel] in H.
  assert (CONS : forall c r, scalar c -> utf8 r -> utf8 (utf8_char c ++ r)).
  { intros c r C (l & F & ->). exists (c :: l). split; [now constructor|reflexivity]. }
  assert (G : forall n lo hi, match utf8_conts n lo hi b with Some r' => utf8_valid_fuel f r' | None => false end = true -> exists r, utf8_conts n lo hi b = Some r /\ utf8 r).
  { intros n lo hi. destruct (utf8_conts n lo hi b) as [r|]; [|discriminate]. intros V. exists r. split; [reflexivity|now apply IH]. }
  assert (G3 : forall lo hi, 128 <= lo -> hi <= 191 -> 224 <= bZ x <= 239 -> (bZ x = 224 -> 160 <= lo) -> (bZ x = 237 -> hi <= 159) ->
    match utf8_conts 2 lo hi b with Some r' => utf8_valid_fuel f r' | None => false end = true -> utf8 (x :: b)).
  { intros lo hi LO HI X E0 ED V. destruct (G _ _ _ V) as (r & C & U). apply conts_inv in C. destruct C as (y & b1 & -> & Y & C). apply conts_inv in C. destruct C as (z & b2 & -> & Z & C).
    injection C as <-. destruct (utf8_char_3 x y z) as [SC Q]; try lia. change (x :: y :: z :: b2) with ([x; y; z] ++ b2)%list. rewrite <- Q. now apply CONS. }
  assert (G4 : forall lo hi, 128 <= lo -> hi <= 191 -> 240 <= bZ x <= 244 -> (bZ x = 240 -> 144 <= lo) -> (bZ x = 244 -> hi <= 143) ->
    match utf8_conts 3 lo hi b with Some r' => utf8_valid_fuel f r' | None => false end = true -> utf8 (x :: b)).
  { intros lo hi LO HI X E0 ED V. destruct (G _ _ _ V) as (r & C & U). apply conts_inv in C. destruct C as (y & b1 & -> & Y & C). apply conts_inv in C. destruct C as (z & b2 & -> & Z & C).
    apply conts_inv in C. destruct C as (w & b3 & -> & W & C).
    injection C as <-. destruct (utf8_char_4 x y z w) as [SC Q]; try lia. change (x :: y :: z :: w :: b3) with ([x; y; z; w] ++ b3)%list. rewrite <- Q. now apply CONS. }
  destruct (Z.ltb_spec (bZ x) 128) as [L|L].
  { destruct (utf8_char_1 x L) as [SC Q]. change (x :: b) with ([x] ++ b)%list. rewrite <- Q. apply CONS; [exact SC|now apply IH]. }
  destruct ((194 <=? bZ x) && (bZ x <=? 223)) eqn:C2.
  { destruct (G _ _ _ H) as (r & C & U). apply conts_inv in C. destruct C as (y & b1 & -> & Y & C). injection C as <-.
    destruct (utf8_char_2 x y) as [SC Q]; try lia. change (x :: y :: b1) with ([x; y] ++ b1)%list. rewrite <- Q. now apply CONS. }
  destruct (Z.eqb_spec (bZ x) 224); [apply (G3 160 191); lia || exact H|]. destruct (Z.eqb_spec (bZ x) 237); [apply (G3 128 159); lia || exact H|].
  destruct ((225 <=? bZ x) && (bZ x <=? 239)) eqn:C3; [apply (G3 128 191); lia || exact H|]. destruct (Z.eqb_spec (bZ x) 240); [apply (G4 144 191); lia || exact H|].
  destruct ((241 <=? bZ x) && (bZ x <=? 243)) eqn:C4; [apply (G4 128 191); lia || exact H|]. destruct (Z.eqb_spec (bZ x) 244); [apply (G4 128 143); lia || exact H|]. discriminate H.
Qed.
Theorem utf8_valid_spec b : utf8_valid b = true <-> utf8 b.
Proof.
  split; [apply utf8_sound|]. intros (l & F & ->). unfold utf8_valid. apply (utf8_more (List.length l)); [|now apply utf8_enough].
  clear F. induction l as [|c l IH]; [cbn; lia|]. cbn [map List.concat List.length]. rewrite app_length. pose proof (utf8_char_len c). lia.
Qed.

Lemma shown_spec b s : shown b s -> (if utf8_valid b then b2s b else BytesToHex b) = s.
Proof.
  intros [b0 U|b0 U]; [apply utf8_valid_spec in U; now rewrite U|]. destruct (utf8_valid b0) eqn:V; [|reflexivity]. apply utf8_valid_spec in V. contradiction.
Qed.

(** ** Bit text *)
Lemma bits8_spec x : bits8 x = byte_bits x.
Proof. destruct x as [[] [] [] [] [] [] [] []]; vm_compute; reflexivity. Qed.
Lemma join_underscored l : join "_" l = underscored l.
Proof. induction l as [|s l IH]; [reflexivity|]. destruct l; [reflexivity|]. cbn [join underscored] in *. now rewrite IH. Qed.
Lemma bits_text_eq b : "0b" ++ join "_" (map bits8 b) = bits_text b.
Proof. unfold bits_text. rewrite join_underscored. do 2 f_equal. apply map_ext, bits8_spec. Qed.
Lemma bitvec_bytes_whole k : 0 <= k < 2 ^ 50 -> bitvec_bytes (8 * k) = k.
Proof.
  intros H. unfold bitvec_bytes, f64_of_int. rewrite Z.abs_eq by lia.
  replace (8 * k <? 2 ^ 53) with true by (symmetry; lia). clear. lia.
Qed.
Lemma bitvec_bytes_ceil n : 0 <= n < 2 ^ 53 -> bitvec_bytes n = (n + 7) / 8.
Proof.
  intros H. unfold bitvec_bytes, f64_of_int. rewrite Z.abs_eq by lia. replace (n <? 2 ^ 53) with true by (symmetry; lia). clear. lia.
Qed.
Lemma reads_bitvec E f c n b : std_env E -> 0 <= n < 2 ^ 53 -> blen b = (n + 7) / 8 ->
  reads (decode (S f) E) [] (process E c CBitVec) (compact n ++ b) (VStr (bits_text b)) [].
Proof.
  intros S H L. cbn [process]. apply reads_len; [exact S|lia|]. cbn [app].
  apply reads_next_ret; [rewrite L; now apply bitvec_bytes_ceil|]. cbv beta. now rewrite bits_text_eq.
Qed.
Lemma bits8_facts x : parse_bin8 (bits8 x) = bZ x /\ (bits8 x <> "" /\ forallb (fun c => negb (Ascii.eqb c "_"%char)) (s2b (bits8 x)) = true).
Proof. split; [|split]; destruct x as [[] [] [] [] [] [] [] []]; try discriminate; vm_compute; reflexivity. Qed.
Lemma split_none c s : forallb (fun x => negb (Ascii.eqb x c)) (s2b s) = true -> split_char c s = [s].
Proof.
  induction s as [|x s IH]; cbn [s2b forallb split_char]; [reflexivity|]. intros H. apply andb_true_iff in H as [H1 H2].
  apply negb_true_iff in H1. rewrite H1. now rewrite IH.
Qed.
Lemma split_one c s t : forallb (fun x => negb (Ascii.eqb x c)) (s2b s) = true -> split_char c (s ++ String c t) = s :: split_char c t.
Proof.
  induction s as [|x s IH]; cbn [s2b forallb split_char String.append]; [intros _; now rewrite Ascii.eqb_refl|].
  intros H. apply andb_true_iff in H as [H1 H2]. apply negb_true_iff in H1. rewrite H1. now rewrite IH.
Qed.
Lemma split_bits b : b <> [] -> split_char "_"%char (join "_" (map bits8 b)) = map bits8 b.
Proof.
  induction b as [|x b IH]; [contradiction|]. intros _. destruct b as [|y b].
  - cbn [map join]. apply split_none, bits8_facts.
  - cbn [map]. change (join "_" (bits8 x :: bits8 y :: map bits8 b)) with (bits8 x ++ "_" ++ join "_" (map bits8 (y :: b))).
    cbn [String.append]. rewrite split_one by apply bits8_facts. now rewrite IH.
Qed.

(** ** Flags *)
Lemma land_pow2 v k : 0 <= v -> 0 <= k -> Z.land v (2 ^ k) = if Z.testbit v k then 2 ^ k else 0.
Proof.
  intros Hv Hk. apply Z.bits_inj'. intros n Hn. rewrite Z.land_spec, Z.pow2_bits_eqb by exact Hk.
  destruct (Z.eqb_spec k n) as [->|N].
  - destruct (Z.testbit v n); cbn [andb]; [now rewrite Z.pow2_bits_true|now rewrite Z.bits_0].
  - rewrite andb_false_r. destruct (Z.testbit v k); [now rewrite Z.pow2_bits_false|now rewrite Z.bits_0].
Qed.
Lemma set_bit v k : 0 <= v < 2 ^ 63 -> 0 <= k -> (0 <? Z.land v (pow2_int k)) = Z.testbit v k.
Proof.
  intros Hv Hk. unfold pow2_int. destruct (Z.ltb_spec k 63).
  - rewrite land_pow2 by lia. pose proof (Z.pow_pos_nonneg 2 k ltac:(lia) Hk). destruct (Z.testbit v k); [lia|reflexivity].
  - replace (Z.land v (- two63)) with 0.
    + symmetry. destruct (Z.eq_dec v 0) as [->|]; [apply Z.bits_0|]. apply Z.bits_above_log2; [lia|].
      apply Z.lt_le_trans with 63; [|exact H]. apply Z.log2_lt_pow2; lia.
    + symmetry. apply Z.bits_inj'. intros n Hn. rewrite Z.land_spec, Z.bits_0.
      destruct (Z.lt_ge_cases n 63) as [L|L].
      * replace (- two63) with (Z.opp (2 ^ 63)) by reflexivity.
        replace (Z.testbit (- 2 ^ 63) n) with false; [apply andb_false_r|].
        symmetry. replace (- 2 ^ 63) with (-1 * 2 ^ 63) by lia. apply Z.mul_pow2_bits_low. exact L.
      * replace (Z.testbit v n) with false; [reflexivity|]. symmetry.
        destruct (Z.eq_dec v 0) as [->|]; [apply Z.bits_0|]. apply Z.bits_above_log2; [lia|].
        apply Z.lt_le_trans with 63; [|exact L]. apply Z.log2_lt_pow2; lia.
Qed.
Lemma set_names_flags v vl k : 0 <= v < 2 ^ 63 -> 0 <= k -> set_names v k vl = flags v k vl.
Proof.
  intros Hv. revert k. induction vl as [|s vl IH]; intros k Hk; [reflexivity|]. cbn [set_names flags].
  rewrite set_bit by assumption. rewrite IH by lia. reflexivity.
Qed.
Lemma flags_0 k vl : flags 0 k vl = [].
Proof. revert k. induction vl as [|s vl IH]; intros k; [reflexivity|]. cbn [flags]. now rewrite Z.bits_0. Qed.

