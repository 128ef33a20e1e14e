(** UUIDs (C38). *)
From Verif Require Export UuidSpec.
From Verif Require Import UuidProofs.
From Coq Require Import Ascii.
Open Scope Z_scope.

Lemma uuid_parts_len x y : length (uuid_parts x y) = 36%nat.
Proof. unfold uuid_parts. rewrite !app_length, !hexn_length. done. Qed.
(** Whatever the random numbers are, the text is a version 4 UUID. *)
Lemma t_C38_version_4 :
  forall x y, random64 x -> random64 y -> uuid4 (uuid x y).
Proof.
  intros x y _ Hy. rewrite (uuid_eq x y Hy). split; [apply uuid_parts_len|]. unfold uuid_parts.
  assert (Hv : exists c l, hexn 4 ((2 ^ 63 + y / 4) / 2 ^ 48) = c :: l /\ c ∈ tx "89ab" /\ length l = 3%nat /\ Forall (fun c => c ∈ tx "0123456789abcdef") l).
  { rewrite (hexn_app 1 3 _ : hexn 4 ((2 ^ 63 + y / 4) / 2 ^ 48) = _). cbn [hexn app]. eexists _, _. split; [done|]. split; [|split; [done|]].
    - unfold random64 in Hy. rewrite Z.div_div by done. change (2 ^ 48 * 16 ^ Z.of_nat 3) with (2 ^ 60). assert (8 <= (2 ^ 63 + y / 4) / 2 ^ 60 < 12) as H.
      { assert (0 <= y / 4 < 2 ^ 62) by (split; [apply Z.div_pos; lia|apply Z.div_lt_upper_bound; lia]). split; [apply Z.div_le_lower_bound; lia|apply Z.div_lt_upper_bound; lia]. }
      rewrite Z.mod_small by lia. remember ((2 ^ 63 + y / 4) / 2 ^ 60) as d. clear Heqd Hy.
      assert (d = 8 \/ d = 9 \/ d = 10 \/ d = 11) as [->|[->|[->| ->]]] by lia; apply (bool_decide_eq_true_1 _); vm_compute; reflexivity.
    - apply (hexn_hex 3). }
  destruct Hv as (c & l & -> & Hc & Hl & Hh). intros i a Hi.
  pose proof (hexn_length 8 (x / 2 ^ 32)) as L1. pose proof (hexn_length 4 (x / 2 ^ 16)) as L2. pose proof (hexn_length 3 x) as L3. pose proof (hexn_length 12 (y / 4)) as L4.
  pose proof (hexn_hex 8 (x / 2 ^ 32)) as H1. pose proof (hexn_hex 4 (x / 2 ^ 16)) as H2. pose proof (hexn_hex 3 x) as H3. pose proof (hexn_hex 12 (y / 4)) as H4.
  revert L1 L2 L3 L4 H1 H2 H3 H4 Hi. generalize (hexn 8 (x / 2 ^ 32)) (hexn 4 (x / 2 ^ 16)) (hexn 3 x) (hexn 12 (y / 4)). intros p1 p2 p3 p4 L1 L2 L3 L4 H1 H2 H3 H4 Hi.
  destruct p1 as [|?[|?[|?[|?[|?[|?[|?[|?[|??]]]]]]]]]; try discriminate L1. destruct p2 as [|?[|?[|?[|?[|??]]]]]; try discriminate L2. destruct p3 as [|?[|?[|?[|??]]]]; try discriminate L3.
  destruct p4 as [|?[|?[|?[|?[|?[|?[|?[|?[|?[|?[|?[|?[|??]]]]]]]]]]]]]; try discriminate L4. destruct l as [|?[|?[|?[|??]]]]; try discriminate Hl.
  repeat match goal with H : Forall _ (_ :: _) |- _ => apply Forall_cons_1 in H as [? H] end.
  do 36 (destruct i as [|i]; [injection Hi as <-; first [assumption|apply (bool_decide_eq_true_1 _); vm_compute; reflexivity]|]). done.
Qed.
(** Nothing else of the random numbers is lost than the four bits of the version and the two of the variant: 122 random bits. *)
Lemma t_C38_randomness :
  forall x y x' y', random64 x -> random64 y -> random64 x' -> random64 y' ->
    (uuid x y = uuid x' y' <-> x / 2 ^ 16 = x' / 2 ^ 16 /\ x mod 2 ^ 12 = x' mod 2 ^ 12 /\ y / 4 = y' / 4).
Proof.
  intros x y x' y' Hx Hy Hx' Hy'. rewrite !uuid_eq by done. unfold uuid_parts. unfold random64 in *. split.
  - intros E.
    apply app_inj_1 in E as [E1 E]; [|by rewrite !hexn_length]. apply app_inj_1 in E as [_ E]; [|done]. apply app_inj_1 in E as [E2 E]; [|by rewrite !hexn_length].
    apply app_inj_1 in E as [_ E]; [|done]. apply app_inj_1 in E as [E3 E]; [|by rewrite !hexn_length]. apply app_inj_1 in E as [_ E]; [|done].
    apply app_inj_1 in E as [E4 E]; [|by rewrite !hexn_length]. apply app_inj_1 in E as [_ E5]; [|done].
    assert (hexn 12 (x / 2 ^ 16) = hexn 12 (x' / 2 ^ 16)) as E6.
    { rewrite (hexn_app 8 4 _ : hexn 12 (x / 2 ^ 16) = _), (hexn_app 8 4 _ : hexn 12 (x' / 2 ^ 16) = _), !Z.div_div by done. change (2 ^ 16 * 16 ^ Z.of_nat 4) with (2 ^ 32). by rewrite E1, E2. }
    apply hexn_inj in E6. apply hexn_inj in E3. rewrite !Z.mod_small in E6 by (split; [apply Z.div_pos; lia|apply Z.div_lt_upper_bound; cbn; lia]). split; [done|]. split; [done|].
    assert (hexn 16 (2 ^ 63 + y / 4) = hexn 16 (2 ^ 63 + y' / 4)) as E7.
    { rewrite (hexn_app 4 12 _ : hexn 16 (2 ^ 63 + y / 4) = _), (hexn_app 4 12 _ : hexn 16 (2 ^ 63 + y' / 4) = _). change (16 ^ Z.of_nat 12) with (2 ^ 48). rewrite E4. f_equal. etrans; [|etrans; [exact E5|]]; apply hexn_mod;
      change (16 ^ Z.of_nat 12) with (2 ^ 48); change (2 ^ 63) with (2 ^ 15 * 2 ^ 48); rewrite Z.add_comm, Z.mod_add by lia; done. }
    apply hexn_inj in E7. assert (forall y, 0 <= y < 2 ^ 64 -> 0 <= y / 4 < 2 ^ 62) as Hq by (intros z Hz; split; [apply Z.div_pos; lia|apply Z.div_lt_upper_bound; lia]).
    pose proof (Hq y Hy). pose proof (Hq y' Hy'). change (16 ^ Z.of_nat 16) with (2 ^ 64) in E7. rewrite !Z.mod_small in E7 by lia. lia.
  - intros (E1 & E2 & E3).
    assert (x / 2 ^ 32 = x' / 2 ^ 32) as ->. { change (2 ^ 32) with (2 ^ 16 * 2 ^ 16). rewrite <- !Z.div_div by done. by rewrite E1. }
    assert (hexn 3 x = hexn 3 x') as -> by (by apply hexn_mod). by rewrite E1, E3.
Qed.
(** Every version 4 UUID can come out. *)
Lemma t_C38_every_uuid :
  forall t, uuid4 t -> exists x y, random64 x /\ random64 y /\ uuid x y = t.
Proof.
  intros t [Hl Hc].
  destruct t as [|c0 t]; [discriminate Hl|]. destruct t as [|c1 t]; [discriminate Hl|]. destruct t as [|c2 t]; [discriminate Hl|]. destruct t as [|c3 t]; [discriminate Hl|]. destruct t as [|c4 t]; [discriminate Hl|]. destruct t as [|c5 t]; [discriminate Hl|]. destruct t as [|c6 t]; [discriminate Hl|]. destruct t as [|c7 t]; [discriminate Hl|]. destruct t as [|c8 t]; [discriminate Hl|]. destruct t as [|c9 t]; [discriminate Hl|]. destruct t as [|c10 t]; [discriminate Hl|]. destruct t as [|c11 t]; [discriminate Hl|]. destruct t as [|c12 t]; [discriminate Hl|]. destruct t as [|c13 t]; [discriminate Hl|]. destruct t as [|c14 t]; [discriminate Hl|]. destruct t as [|c15 t]; [discriminate Hl|]. destruct t as [|c16 t]; [discriminate Hl|]. destruct t as [|c17 t]; [discriminate Hl|]. destruct t as [|c18 t]; [discriminate Hl|]. destruct t as [|c19 t]; [discriminate Hl|]. destruct t as [|c20 t]; [discriminate Hl|]. destruct t as [|c21 t]; [discriminate Hl|]. destruct t as [|c22 t]; [discriminate Hl|]. destruct t as [|c23 t]; [discriminate Hl|]. destruct t as [|c24 t]; [discriminate Hl|]. destruct t as [|c25 t]; [discriminate Hl|]. destruct t as [|c26 t]; [discriminate Hl|]. destruct t as [|c27 t]; [discriminate Hl|]. destruct t as [|c28 t]; [discriminate Hl|]. destruct t as [|c29 t]; [discriminate Hl|]. destruct t as [|c30 t]; [discriminate Hl|]. destruct t as [|c31 t]; [discriminate Hl|]. destruct t as [|c32 t]; [discriminate Hl|]. destruct t as [|c33 t]; [discriminate Hl|]. destruct t as [|c34 t]; [discriminate Hl|]. destruct t as [|c35 t]; [discriminate Hl|]. destruct t; [|discriminate Hl]. clear Hl.
  assert (H0 : c0 ∈ tx "0123456789abcdef") by exact (Hc 0%nat _ eq_refl).
  assert (H1 : c1 ∈ tx "0123456789abcdef") by exact (Hc 1%nat _ eq_refl).
  assert (H2 : c2 ∈ tx "0123456789abcdef") by exact (Hc 2%nat _ eq_refl).
  assert (H3 : c3 ∈ tx "0123456789abcdef") by exact (Hc 3%nat _ eq_refl).
  assert (H4 : c4 ∈ tx "0123456789abcdef") by exact (Hc 4%nat _ eq_refl).
  assert (H5 : c5 ∈ tx "0123456789abcdef") by exact (Hc 5%nat _ eq_refl).
  assert (H6 : c6 ∈ tx "0123456789abcdef") by exact (Hc 6%nat _ eq_refl).
  assert (H7 : c7 ∈ tx "0123456789abcdef") by exact (Hc 7%nat _ eq_refl).
  assert (H8 : c8 ∈ tx "-") by exact (Hc 8%nat _ eq_refl).
  assert (H9 : c9 ∈ tx "0123456789abcdef") by exact (Hc 9%nat _ eq_refl).
  assert (H10 : c10 ∈ tx "0123456789abcdef") by exact (Hc 10%nat _ eq_refl).
  assert (H11 : c11 ∈ tx "0123456789abcdef") by exact (Hc 11%nat _ eq_refl).
  assert (H12 : c12 ∈ tx "0123456789abcdef") by exact (Hc 12%nat _ eq_refl).
  assert (H13 : c13 ∈ tx "-") by exact (Hc 13%nat _ eq_refl).
  assert (H14 : c14 ∈ tx "4") by exact (Hc 14%nat _ eq_refl).
  assert (H15 : c15 ∈ tx "0123456789abcdef") by exact (Hc 15%nat _ eq_refl).
  assert (H16 : c16 ∈ tx "0123456789abcdef") by exact (Hc 16%nat _ eq_refl).
  assert (H17 : c17 ∈ tx "0123456789abcdef") by exact (Hc 17%nat _ eq_refl).
  assert (H18 : c18 ∈ tx "-") by exact (Hc 18%nat _ eq_refl).
  assert (H19 : c19 ∈ tx "89ab") by exact (Hc 19%nat _ eq_refl).
  assert (H20 : c20 ∈ tx "0123456789abcdef") by exact (Hc 20%nat _ eq_refl).
  assert (H21 : c21 ∈ tx "0123456789abcdef") by exact (Hc 21%nat _ eq_refl).
  assert (H22 : c22 ∈ tx "0123456789abcdef") by exact (Hc 22%nat _ eq_refl).
  assert (H23 : c23 ∈ tx "-") by exact (Hc 23%nat _ eq_refl).
  assert (H24 : c24 ∈ tx "0123456789abcdef") by exact (Hc 24%nat _ eq_refl).
  assert (H25 : c25 ∈ tx "0123456789abcdef") by exact (Hc 25%nat _ eq_refl).
  assert (H26 : c26 ∈ tx "0123456789abcdef") by exact (Hc 26%nat _ eq_refl).
  assert (H27 : c27 ∈ tx "0123456789abcdef") by exact (Hc 27%nat _ eq_refl).
  assert (H28 : c28 ∈ tx "0123456789abcdef") by exact (Hc 28%nat _ eq_refl).
  assert (H29 : c29 ∈ tx "0123456789abcdef") by exact (Hc 29%nat _ eq_refl).
  assert (H30 : c30 ∈ tx "0123456789abcdef") by exact (Hc 30%nat _ eq_refl).
  assert (H31 : c31 ∈ tx "0123456789abcdef") by exact (Hc 31%nat _ eq_refl).
  assert (H32 : c32 ∈ tx "0123456789abcdef") by exact (Hc 32%nat _ eq_refl).
  assert (H33 : c33 ∈ tx "0123456789abcdef") by exact (Hc 33%nat _ eq_refl).
  assert (H34 : c34 ∈ tx "0123456789abcdef") by exact (Hc 34%nat _ eq_refl).
  assert (H35 : c35 ∈ tx "0123456789abcdef") by exact (Hc 35%nat _ eq_refl).
  clear Hc. apply elem_of_list_singleton in H8, H13, H14, H18, H23. subst.
  destruct (hexn_onto [c0;c1;c2;c3;c4;c5;c6;c7;c9;c10;c11;c12;"0"%char;c15;c16;c17]) as (x & Hx & Ex). { repeat (apply Forall_cons_2; [first [assumption|apply (bool_decide_eq_true_1 _); vm_compute; reflexivity]|]). constructor. }
  assert (H19' : c19 ∈ tx "0123456789abcdef") by (clear -H19; unfold tx in *; cbn in *; rewrite !elem_of_cons in *; tauto).
  destruct (hexn_onto [c19;c20;c21;c22;c24;c25;c26;c27;c28;c29;c30;c31;c32;c33;c34;c35]) as (y & Hy & Ey). { repeat (apply Forall_cons_2; [assumption|]). constructor. }
  cbn [length] in Hx, Ex, Hy, Ey. change (16 ^ Z.of_nat 16) with (2 ^ 64) in Hx, Hy.
  assert (2 ^ 63 <= y < 2 ^ 63 + 2 ^ 62) as Hr.
  { pose proof Ey as E. rewrite (hexn_app 1 15 _ : hexn 16 y = _) in E. apply (app_inj_1 _ [c19]) in E as [E _]; [|done]. cbn [hexn app] in E.
    assert (exists d, 8 <= d < 12 /\ c19 = hex_char d) as (d & Hd & ->).
    { clear -H19. unfold tx in H19. cbn in H19. rewrite !elem_of_cons, elem_of_nil in H19. destruct H19 as [->|[->|[->|[->|[]]]]]; [exists 8|exists 9|exists 10|exists 11]; done. }
    injection E as E. apply hex_char_inj in E; [|apply Z.mod_pos_bound; lia|lia]. change (16 ^ Z.of_nat 15) with (2 ^ 60) in E.
    rewrite Z.mod_small in E by (split; [apply Z.div_pos; lia|apply Z.div_lt_upper_bound; lia]). pose proof (Z.div_mod y (2 ^ 60) ltac:(lia)). pose proof (Z.mod_pos_bound y (2 ^ 60) ltac:(lia)). lia. }
  assert (random64 ((y - 2 ^ 63) * 4)) as Hq by (unfold random64; lia).
  exists x, ((y - 2 ^ 63) * 4). split; [done|]. split; [done|]. unfold uuid. rewrite (variant _ Hq), !to_hex_hexn.
  replace (2 ^ 63 + (y - 2 ^ 63) * 4 / 4) with y by (rewrite Z.div_mul by lia; lia). rewrite Ex, Ey. done.
Qed.
(** The name of a temporary file: the directory, the prefix and a UUID. *)
Lemma t_C38_tmp_file_name :
  forall prefix x y, random64 x -> random64 y -> exists t, uuid4 t /\ tmp_file_name prefix x y = tx "/tmp/" ++ prefix ++ t.
Proof.
  intros prefix x y Hx Hy. exists (uuid x y). split; [by apply t_C38_version_4|]. by destruct prefix.
Qed.
