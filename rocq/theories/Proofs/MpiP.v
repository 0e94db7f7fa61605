(** Lemmas about Model.Mpi. *)
From Verif Require Import Proofs.Lib Model.Includes Model.Mpi Proofs.IncludesP.

Lemma N_size_bound a : a < 2 ^ N.size a.
Proof. apply N.size_gt. Qed.

Lemma pow256 n : 256 ^ n = 2 ^ (8 * n).
Proof. rewrite N.pow_mul_r. reflexivity. Qed.

Lemma mpitoraw_val a : be_val (mpitoraw a) = a.
Proof.
  unfold mpitoraw. rewrite be_val_be, N2Nat.id. apply N.mod_small.
  eapply N.lt_le_trans; [apply N_size_bound|]. rewrite pow256.
  apply N.pow_le_mono_r; [lia|]. unfold bitsize. lia.
Qed.

Lemma mpitoraw_len a : len (mpitoraw a) = (bitsize a + 7) / 8.
Proof. unfold mpitoraw. rewrite len_be, N2Nat.id. reflexivity. Qed.

Lemma mpitoraw_octets a : octets (mpitoraw a).
Proof. apply be_octets. Qed.

Lemma mpitoraw_ne a : mpitoraw a <> [].
Proof.
  intros E. pose proof (mpitoraw_len a) as H. rewrite E, len_nil in H. unfold bitsize in H. lia.
Qed.

Lemma rawtompi_raw a : rawtompi (mpitoraw a) = Ok a.
Proof.
  unfold rawtompi. destruct (mpitoraw a) eqn:E; [now apply mpitoraw_ne in E|].
  rewrite <- E. now rewrite mpitoraw_val.
Qed.

Lemma write_MPI_octets a : octets (write_MPI a).
Proof. apply octets_app; split; apply be_octets. Qed.

Lemma write_MPI_len a : len (write_MPI a) = 2 + (bitsize a + 7) / 8.
Proof. unfold write_MPI. rewrite len_app, len_be, mpitoraw_len. lia. Qed.

Lemma be2 v : be 2 v = [(v / 256) mod 256; v mod 256].
Proof. cbn [be N.of_nat]. change (Pos.of_succ_nat 0) with 1%positive. now rewrite N.pow_1_r, N.pow_0_r, N.div_1_r. Qed.

Lemma u16_pair hi lo : hi < 256 -> lo < 256 ->
  u16 (N.lor (N.shiftl (u8 hi) 8) (u8 lo)) = hi * 256 + lo.
Proof.
  intros. unfold u8. rewrite !N.mod_small by auto.
  rewrite lor_shiftl_add by (change (2^8) with 256; lia). change (2^8) with 256.
  unfold u16. apply N.mod_small. lia.
Qed.

Lemma read_MPI_hdr pre v rest pos : pos = len pre -> v < 65536 ->
  (hi <- at_ (pre ++ be 2 v ++ rest) pos ;;
   lo <- at_ (pre ++ be 2 v ++ rest) (pos + 1) ;;
   Ok (u16 (N.lor (N.shiftl (u8 hi) 8) (u8 lo)))) = Ok v.
Proof.
  intros -> Hv. rewrite be2. cbn [app].
  rewrite at_app by auto. cbn [bind].
  replace (pre ++ (v / 256) mod 256 :: v mod 256 :: rest)
    with ((pre ++ [(v / 256) mod 256]) ++ v mod 256 :: rest) by (now rewrite <- app_assoc).
  rewrite at_app by (autorewrite with len; lia). cbn [bind].
  rewrite u16_pair by lia. f_equal. lia.
Qed.

Lemma read_MPI_eq data pos : read_MPI data pos =
  (bits <- (hi <- at_ data pos ;; lo <- at_ data (pos + 1) ;;
            Ok (u16 (N.lor (N.shiftl (u8 hi) 8) (u8 lo)))) ;;
   let size := u16 ((bits + 7) / 8 * 8) / 8 in
   raw <- substr data (pos + 2) size ;;
   v <- rawtompi raw ;;
   Ok (v, pos + 2 + size)).
Proof.
  unfold read_MPI. destruct (at_ data pos); cbn [bind]; auto.
  destruct (at_ data (pos + 1)); cbn [bind]; auto.
Qed.

Lemma read_write_MPI pre x post pos : pos = len pre -> bitsize x <= 65528 ->
  read_MPI (pre ++ write_MPI x ++ post) pos = Ok (x, pos + len (write_MPI x)).
Proof.
  intros -> Hx. rewrite read_MPI_eq. unfold write_MPI. rewrite <- !app_assoc.
  rewrite read_MPI_hdr by lia. cbn [bind].
  assert (E : u16 ((bitsize x + 7) / 8 * 8) / 8 = (bitsize x + 7) / 8) by (unfold u16; lia).
  rewrite E. rewrite app_assoc.
  rewrite substr_app by (autorewrite with len; rewrite ?mpitoraw_len; lia).
  cbn [bind]. rewrite rawtompi_raw. cbn [bind]. do 2 f_equal.
  autorewrite with len. rewrite mpitoraw_len. lia.
Qed.

Lemma read_MPI_too_long pre x post pos : pos = len pre -> 65529 <= bitsize x <= 65535 ->
  read_MPI (pre ++ write_MPI x ++ post) pos = Throw EInvalidArgument.
Proof.
  intros -> Hx. rewrite read_MPI_eq. unfold write_MPI. rewrite <- !app_assoc.
  rewrite read_MPI_hdr by lia. cbn [bind].
  assert (E : u16 ((bitsize x + 7) / 8 * 8) / 8 = 0) by (unfold u16; lia).
  rewrite E. destruct (substr_ok (pre ++ be 2 (bitsize x) ++ mpitoraw x ++ post) (len pre + 2) 0) as [y Hy].
  { autorewrite with len. lia. }
  rewrite Hy. cbn [bind]. apply substr_len in Hy. rewrite N.min_l in Hy by lia.
  apply len_0 in Hy. subst. reflexivity.
Qed.

Lemma read_MPI_octet_inv data pos v p : read_MPI data pos = Ok (v, p) ->
  pos + 2 <= p /\ pos + 2 < len data.
Proof.
  rewrite read_MPI_eq. intros H. inv_bind H. cbv zeta in H. inv_bind H. inv_bind H.
  injection H as <- <-. split; [lia|].
  destruct a0; [discriminate|]. pose proof (substr_len _ _ _ _ E0) as L. rewrite len_cons in L.
  lia.
Qed.

(** Modular exponentiation. *)
Lemma powm_spec b e m : m <> 0 -> powm b e m = b ^ e mod m.
Proof.
  intros Hm. destruct e as [|e]; [reflexivity|]. cbn [powm].
  induction e as [e IH|e IH|]; cbn [powm_pos].
  - rewrite IH. replace (N.pos (xI e)) with (N.pos e + N.pos e + 1) by lia.
    rewrite !N.pow_add_r, N.pow_1_r. rewrite <- N.mul_mod by auto.
    rewrite N.mul_mod_idemp_l by auto. reflexivity.
  - rewrite IH. replace (N.pos (xO e)) with (N.pos e + N.pos e) by lia.
    rewrite !N.pow_add_r. now rewrite <- N.mul_mod by auto.
  - now rewrite N.pow_1_r.
Qed.

Lemma bitsize_le x n : 1 <= n -> (bitsize x <= n <-> x < 2 ^ n).
Proof.
  intros Hn. unfold bitsize. destruct (N.eq_dec x 0) as [->|Hx].
  - split; intros; [apply N.neq_0_lt_0, N.pow_nonzero; lia | cbn; lia].
  - rewrite N.size_log2 by auto. rewrite (N.log2_lt_pow2 x) by lia. lia.
Qed.
