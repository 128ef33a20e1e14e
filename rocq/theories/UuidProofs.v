From Verif Require Import UuidSpec.
From Coq Require Import Ascii.
Open Scope Z_scope.

(** [n] hexadecimal digits of [z]. *)
Fixpoint hexn (n : nat) (z : Z) : text := match n with O => [] | S n => hexn n (z / 16) ++ [hex_char (z mod 16)] end.
Lemma hexn_length n : forall z, length (hexn n z) = n.
Proof. induction n as [|n IH]; intros z; cbn [hexn]; [done|]. rewrite app_length, IH. cbn. lia. Qed.
Lemma to_hex_loop_hexn n : forall z res, (n <= length res)%nat -> to_hex_loop n z res = hexn n z ++ drop n res.
Proof.
  induction n as [|n IH]; intros z res Hl; cbn [to_hex_loop hexn]; [done|].
  rewrite IH by (rewrite insert_length; lia). rewrite Z.shiftr_div_pow2 by lia. change (2 ^ 4) with 16.
  change 15 with (Z.ones 4). rewrite Z.land_ones by lia. change (2 ^ 4) with 16. rewrite <- app_assoc. f_equal. cbn [app].
  rewrite drop_insert_le by lia. rewrite Nat.sub_diag. destruct (drop n res) as [|c l] eqn:E; [apply (f_equal length) in E; rewrite drop_length in E; cbn in E; lia|]. cbn.
  f_equal. replace (S n) with (n + 1)%nat by lia. rewrite <- drop_drop, E. done.
Qed.
Lemma to_hex_hexn z : to_hex z = hexn 16 z.
Proof. unfold to_hex. rewrite to_hex_loop_hexn by (rewrite repeat_length; lia). cbn [repeat drop]. by rewrite app_nil_r. Qed.
Lemma hexn_app n m : forall z, hexn (n + m) z = hexn n (z / 16 ^ Z.of_nat m) ++ hexn m z.
Proof.
  induction m as [|m IH]; intros z.
  - rewrite Nat.add_0_r, Z.div_1_r. cbn. by rewrite app_nil_r.
  - rewrite Nat.add_succ_r. cbn [hexn]. rewrite IH, <- app_assoc. f_equal. f_equal. rewrite Z.div_div by lia. f_equal. rewrite Nat2Z.inj_succ, Z.pow_succ_r by lia. lia.
Qed.
Lemma hex_char_inj d e : 0 <= d < 16 -> 0 <= e < 16 -> hex_char d = hex_char e -> d = e.
Proof.
  intros Hd He.
  assert (d ∈ [0;1;2;3;4;5;6;7;8;9;10;11;12;13;14;15]) as Id by (rewrite !elem_of_cons; lia).
  assert (e ∈ [0;1;2;3;4;5;6;7;8;9;10;11;12;13;14;15]) as Ie by (rewrite !elem_of_cons; lia).
  clear Hd He. revert d e Id Ie.
  assert (Forall (fun d => Forall (fun e => hex_char d = hex_char e -> d = e) [0;1;2;3;4;5;6;7;8;9;10;11;12;13;14;15]) [0;1;2;3;4;5;6;7;8;9;10;11;12;13;14;15]) as H by (apply (bool_decide_eq_true_1 _); vm_compute; reflexivity).
  intros d e Id Ie. rewrite Forall_forall in H. specialize (H d Id). rewrite Forall_forall in H. by apply H.
Qed.
Lemma hexn_inj n : forall z z', hexn n z = hexn n z' -> z mod 16 ^ Z.of_nat n = z' mod 16 ^ Z.of_nat n.
Proof.
  induction n as [|n IH]; intros z z' E; [by rewrite !Z.mod_1_r|]. cbn [hexn] in E. apply app_inj_tail in E as [E1 E2]. apply IH in E1.
  apply hex_char_inj in E2; [|by apply Z.mod_pos_bound..]. rewrite Nat2Z.inj_succ, Z.pow_succ_r by lia. rewrite !(Z.rem_mul_r _ 16) by lia. by rewrite E1, E2.
Qed.
Lemma hexn_mod n : forall z z', z mod 16 ^ Z.of_nat n = z' mod 16 ^ Z.of_nat n -> hexn n z = hexn n z'.
Proof.
  induction n as [|n IH]; intros z z' E; [done|]. cbn [hexn]. rewrite Nat2Z.inj_succ, Z.pow_succ_r in E by lia. rewrite !(Z.rem_mul_r _ 16) in E by lia.
  pose proof (Z.mod_pos_bound z 16 ltac:(lia)). pose proof (Z.mod_pos_bound z' 16 ltac:(lia)).
  assert (z mod 16 = z' mod 16) as E1 by lia. f_equal; [|by rewrite E1]. apply IH. lia.
Qed.
Lemma hex_char_hex d : 0 <= d < 16 -> hex_char d ∈ tx "0123456789abcdef".
Proof. intros H. unfold hex_char. apply elem_of_list_In, nth_In. cbn. lia. Qed.
Lemma hex_char_onto c : c ∈ tx "0123456789abcdef" -> exists d, 0 <= d < 16 /\ c = hex_char d.
Proof. intros H. apply elem_of_list_In, (In_nth _ _ "000"%char) in H as (n & Hn & <-). cbn in Hn. exists (Z.of_nat n). unfold hex_char. rewrite Nat2Z.id. split; [lia|done]. Qed.
Lemma hexn_hex n : forall z, Forall (fun c => c ∈ tx "0123456789abcdef") (hexn n z).
Proof. induction n as [|n IH]; intros z; cbn [hexn]; [constructor|]. apply Forall_app. split; [apply IH|]. apply Forall_singleton, hex_char_hex, Z.mod_pos_bound. lia. Qed.
Lemma hexn_onto t : Forall (fun c => c ∈ tx "0123456789abcdef") t -> exists z, 0 <= z < 16 ^ Z.of_nat (length t) /\ hexn (length t) z = t.
Proof.
  induction t as [|c t IH] using rev_ind; intros H; [exists 0; done|]. apply Forall_app in H as [H1 H2]. apply Forall_cons_1 in H2 as [H2 _]. destruct (IH H1) as (z & Hz & E).
  destruct (hex_char_onto c H2) as (d & Hd & ->). exists (z * 16 + d). rewrite app_length. cbn [length]. replace (length t + 1)%nat with (S (length t)) by lia. rewrite Nat2Z.inj_succ, Z.pow_succ_r by lia.
  split; [lia|]. cbn [hexn]. rewrite Z.add_comm, Z.div_add, Z.mod_add, (Z.div_small d), (Z.mod_small d), Z.add_0_l by lia. by rewrite E.
Qed.

(** The second number: its upper 62 bits, after "10". *)
Lemma variant y : random64 y -> Z.lor (Z.shiftr y 2) (Z.shiftl 1 63) = 2 ^ 63 + y / 4.
Proof.
  intros Hy. unfold random64 in Hy. rewrite Z.shiftr_div_pow2 by lia. change (2 ^ 2) with 4. rewrite Z.lor_comm.
  assert (0 <= y / 4 < 2 ^ 63) as H. { split; [apply Z.div_pos; lia|]. apply Z.div_lt_upper_bound; lia. }
  assert (Z.land (Z.shiftl 1 63) (y / 4) = 0) as Hz; [|by rewrite <- Z.lxor_lor, <- Z.add_nocarry_lxor by done].
  apply Z.bits_inj'. intros n Hn. rewrite Z.land_spec, Z.bits_0. change (Z.shiftl 1 63) with (2 ^ 63). rewrite Z.pow2_bits_eqb by lia.
  destruct (Z.eqb_spec 63 n) as [<-|]; [|done]. cbn [andb]. destruct (Z.eq_dec (y / 4) 0) as [->|Hne]; [done|]. apply Z.bits_above_log2; [lia|]. apply Z.log2_lt_pow2; lia.
Qed.
Definition uuid_parts (x y : Z) : text :=
  hexn 8 (x / 2 ^ 32) ++ tx "-" ++ hexn 4 (x / 2 ^ 16) ++ tx "-4" ++ hexn 3 x ++ tx "-" ++ hexn 4 ((2 ^ 63 + y / 4) / 2 ^ 48) ++ tx "-" ++ hexn 12 (y / 4).
Lemma uuid_eq x y : random64 y -> uuid x y = uuid_parts x y.
Proof.
  intros Hy. unfold uuid. rewrite (variant y Hy), !to_hex_hexn. unfold substr, uuid_parts.
  assert (hexn 16 x = hexn 8 (x / 2 ^ 32) ++ hexn 4 (x / 2 ^ 16) ++ hexn 1 (x / 2 ^ 12) ++ hexn 3 x) as ->.
  { rewrite (hexn_app 8 8 x : hexn 16 x = _), (hexn_app 4 4 x : hexn 8 x = _), (hexn_app 1 3 x : hexn 4 x = _). done. }
  assert (hexn 16 (2 ^ 63 + y / 4) = hexn 4 ((2 ^ 63 + y / 4) / 2 ^ 48) ++ hexn 12 (y / 4)) as ->.
  { rewrite (hexn_app 4 12 _ : hexn 16 (2 ^ 63 + y / 4) = _). f_equal. apply hexn_mod. change (16 ^ Z.of_nat 12) with (2 ^ 48). change (2 ^ 63) with (2 ^ 15 * 2 ^ 48). rewrite Z.add_comm, Z.mod_add by lia. done. }
  assert (forall l1 l2 l3 l4 : text, length l1 = 8%nat -> length l2 = 4%nat -> length l3 = 1%nat -> length l4 = 3%nat ->
    take 8 (drop 0 (l1 ++ l2 ++ l3 ++ l4)) = l1 /\ take 4 (drop 8 (l1 ++ l2 ++ l3 ++ l4)) = l2 /\ take 3 (drop 13 (l1 ++ l2 ++ l3 ++ l4)) = l4) as Hcut.
  { intros l1 l2 l3 l4 L1 L2 L3 L4. destruct l1 as [|?[|?[|?[|?[|?[|?[|?[|?[|??]]]]]]]]]; try discriminate L1. destruct l2 as [|?[|?[|?[|?[|??]]]]]; try discriminate L2.
    destruct l3 as [|?[|??]]; try discriminate L3. destruct l4 as [|?[|?[|?[|??]]]]; try discriminate L4. done. }
  destruct (Hcut (hexn 8 (x / 2 ^ 32)) (hexn 4 (x / 2 ^ 16)) (hexn 1 (x / 2 ^ 12)) (hexn 3 x)) as (-> & -> & ->); [apply hexn_length..|].
  assert (forall l1 l2 : text, length l1 = 4%nat -> length l2 = 12%nat -> take 4 (drop 0 (l1 ++ l2)) = l1 /\ take 12 (drop 4 (l1 ++ l2)) = l2) as Hcut2.
  { intros l1 l2 L1 L2. destruct l1 as [|?[|?[|?[|?[|??]]]]]; try discriminate L1. cbn [app drop take]. split; [done|]. apply take_ge. change (length l2 <= 12)%nat. lia. }
  destruct (Hcut2 (hexn 4 ((2 ^ 63 + y / 4) / 2 ^ 48)) (hexn 12 (y / 4))) as (-> & ->); [apply hexn_length..|]. done.
Qed.
