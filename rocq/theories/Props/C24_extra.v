(** C24, continued: what mostly comes out of a generated subkey's secret part. *)
From Verif Require Import Props.C23_C26 Proofs.Lib Proofs.KeyP Proofs.MpiP.
Local Open Scope N_scope.

Lemma mpi_last pre hi lo r : 0 < hi -> hi < 255 -> lo < 256 -> r <> [] -> len r <= 32 ->
  exists q, read_MPI (pre ++ hi :: lo :: r) (len pre) = Ok (be_val r, q) /\ len pre + 2 + len r <= q.
Proof.
  intros H0 H1 L R Lr. unfold read_MPI. rewrite (at_app pre hi (lo :: r)) by reflexivity. cbn [bind].
  change (pre ++ hi :: lo :: r) with (pre ++ [hi] ++ lo :: r). rewrite app_assoc.
  rewrite (at_app (pre ++ [hi]) lo r) by rd_side. cbn [bind]. cbv zeta.
  assert (B : u16 (N.lor (N.shiftl (u8 hi) 8) (u8 lo)) = hi * 256 + lo).
  { unfold u8, u16. rewrite !(N.mod_small _ 256) by lia. rewrite N.shiftl_mul_pow2. change (2 ^ 8) with 256.
    replace (N.lor (hi * 256) lo) with (hi * 256 + lo).
    - apply N.mod_small. lia.
    - change 256 with (2 ^ 8) in *. rewrite <- N.shiftl_mul_pow2. apply N.bits_inj_iff. intros i.
      rewrite N.add_nocarry_lxor; [rewrite N.lxor_spec, N.lor_spec|]; 
      [destruct (N.ltb_spec i 8) as [X|X]|].
      + rewrite N.shiftl_spec_low by exact X. now destruct (N.testbit lo i).
      + replace (N.testbit lo i) with false; [now destruct (N.testbit _ i)|]. symmetry. destruct (N.eq_dec lo 0) as [->|Z]; [apply N.bits_0|].
        apply N.bits_above_log2. apply N.log2_lt_pow2 in L; lia.
      + apply N.bits_inj_iff. intros j. rewrite N.land_spec, N.bits_0. destruct (N.ltb_spec j 8) as [X|X].
        * now rewrite N.shiftl_spec_low by exact X.
        * replace (N.testbit lo j) with false; [apply andb_false_r|]. symmetry. destruct (N.eq_dec lo 0) as [->|Z]; [apply N.bits_0|].
          apply N.bits_above_log2. apply N.log2_lt_pow2 in L; lia. }
  rewrite B. set (size := u16 ((hi * 256 + lo + 7) / 8 * 8) / 8).
  assert (S : 32 <= size).
  { unfold size, u16. pose proof (N.div_mod' (hi * 256 + lo + 7) 8) as D. pose proof (N.mod_lt (hi * 256 + lo + 7) 8 ltac:(lia)).
    rewrite N.mod_small by lia. rewrite N.div_mul by lia. apply N.div_le_lower_bound; lia. }
  change (lo :: r) with ([lo] ++ r). rewrite app_assoc.
  rewrite (substr_app_end ((pre ++ [hi]) ++ [lo]) r (len pre + 2) size) by (rd_side || lia). cbn [bind].
  unfold rawtompi. destruct r as [|a r]; [congruence|]. cbn [bind]. eexists. split; [reflexivity|]. lia.
Qed.
Lemma mpis_then : forall ms n pre hi lo r, Forall mpi_fits ms -> (length ms + 2 <= n)%nat -> 0 < hi -> hi < 255 -> lo < 256 -> r <> [] -> len r <= 32 ->
  exists q, read_mpis_until n (pre ++ mpis_raw ms ++ hi :: lo :: r) (len pre) (len (pre ++ mpis_raw ms ++ hi :: lo :: r)) = Ok (ms ++ [be_val r], q).
Proof.
  induction ms as [|m ms IH]; intros n pre hi lo r F N0 H0 H1 L R Lr.
  - cbn [length] in N0. destruct n as [|[|n]]; [lia|lia|]. change (mpis_raw []) with (@nil N). cbn [app].
    destruct (mpi_last pre hi lo r H0 H1 L R Lr) as (q & E & Q). exists q. cbn [read_mpis_until].
    rewrite !len_app, !len_cons. replace (len pre <? _) with true by lia. rewrite E. cbn [bind read_mpis_until].
    replace (q <? _) with false by lia. reflexivity.
  - cbn [length] in N0. destruct n as [|n]; [lia|]. inversion F as [|? ? Hm F']; subst. cbn [read_mpis_until].
    rewrite mpis_raw_cons. rewrite <- app_assoc. replace (len pre <? _) with true by (rewrite !len_app, !len_cons; lia).
    rewrite read_write_MPI by auto using mpi_fits_bitsize. cbn [bind]. rewrite (app_assoc pre).
    replace (len pre + len (write_MPI m)) with (len (pre ++ write_MPI m)) by rd_side.
    destruct (IH n (pre ++ write_MPI m) hi lo r F' ltac:(lia) H0 H1 L R Lr) as (q & E). exists q. rewrite E. reflexivity.
Qed.

(** If the first octet of the SHA-1 checksum is neither 0 nor 255, the secret part of a generated subkey with
    a passphrase opens, and the values are the ones it was made from followed by exactly one more: the
    last eighteen octets of the checksum as a number. *)
Theorem C24_subkey_extra : forall c pass sym hash salt iv pri hi lo r, In sym offered -> In hash hashes -> length salt = 8%nat ->
  length iv = block_octets sym -> Forall mpi_fits pri -> len (concat (map write_MPI pri)) + 64 < two64 ->
  hash_use 2 (concat (map write_MPI pri)) = Ok (hi :: lo :: r) -> 0 < hi < 255 ->
  exists s, generated_secret true (c :: pass) sym hash salt iv pri = Ok s /\ decrypt_secret_keys s (c :: pass) = Ok (pri ++ [be_val r]).
Proof.
  intros c pass sym hash salt iv pri hi lo r I Ih Ls Li F B HU [H0 H1]. change (concat (map write_MPI pri)) with (mpis_raw pri) in *.
  destruct (generated_ok true (c :: pass) sym hash salt iv pri I Ih Ls Li) as (s & G & _ & P & D).
  exists s. split; [exact G|]. apply con_pass in G. unfold decrypt_secret_keys. rewrite D. cbn [bind]. rewrite G.
  cbn iota zeta. set (d := mpis_raw pri ++ digest_of 2 (mpis_raw pri)).
  destruct (digest_of_20 (mpis_raw pri)) as [L U]. destruct (digest_of_20 d) as [L' U'].
  change (254 =? 254) with true. cbn iota.
  destruct (split_check d (digest_of 2 d) 20 L') as [E1 E2].
  { unfold d. rewrite !len_app, L. fold d. rewrite L'. lia. }
  rewrite E1, E2. cbn [bind]. rewrite U'. cbn [bind]. rewrite beq_refl.
  pose proof (hash_use_octets _ _ _ HU) as O. rewrite HU in U. apply Ok_inj in U. unfold d. rewrite <- U in L |- *. rewrite !len_cons in L.
  destruct (mpis_then pri (S (length (mpis_raw pri ++ hi :: lo :: r))) [] hi lo r F) as (q & E); auto.
  - pose proof (mpis_raw_length pri). rewrite app_length. cbn [length]. lia.
  - inversion O as [|? ? _ O']. now inversion O'.
  - intros ->. cbn in L. lia.
  - lia.
  - cbn [app] in E. change (len []) with 0 in E. rewrite E. reflexivity.
Qed.
Example C24_subkey_extra_ex : exists hi lo r, hash_use 2 (concat (map write_MPI [1000003; 17; 19; 2])) = Ok (hi :: lo :: r) /\ 0 < hi < 255 /\ length r = 18%nat.
Proof. vm_compute. do 3 eexists. split; [reflexivity|]. split; [split; reflexivity|reflexivity]. Qed.

(** Not always: the secret part of a generated subkey whose one secret value is 707 cannot be opened by anybody,
    whatever the passphrase, the cipher, the hash and the random octets: decrypt_secret_keys throws on the
    right passphrase. *)
Theorem C24_closed_refuted : forall c pass sym hash salt iv, In sym offered -> In hash hashes -> length salt = 8%nat -> length iv = block_octets sym ->
  exists s, generated_secret true (c :: pass) sym hash salt iv [707] = Ok s /\ decrypt_secret_keys s (c :: pass) = Throw EInvalidArgument.
Proof.
  intros c pass sym hash salt iv I Ih Ls Li.
  destruct (generated_ok true (c :: pass) sym hash salt iv [707] I Ih Ls Li) as (s & G & _ & P & D).
  exists s. split; [exact G|]. apply con_pass in G. unfold decrypt_secret_keys. rewrite D. cbn [bind]. rewrite G.
  cbn iota zeta. set (d := mpis_raw [707] ++ digest_of 2 (mpis_raw [707])).
  destruct (digest_of_20 d) as [L' U']. change (254 =? 254) with true. cbn iota.
  assert (Ld : len d = 24) by (vm_compute; reflexivity).
  destruct (split_check d (digest_of 2 d) 20 L') as [E1 E2]; [rewrite len_app, L', Ld; reflexivity|].
  rewrite E1, E2. cbn [bind]. rewrite U'. cbn [bind]. rewrite beq_refl. clear.
  assert (E : read_mpis_until (S (length d)) d 0 (len d) = Throw EInvalidArgument) by (vm_compute; reflexivity).
  rewrite E. reflexivity.
Qed.
Example C24_closed_ex : In 9 offered /\ In 8 hashes /\ length (repeat 1 8) = 8%nat /\ length (repeat 2 16) = block_octets 9.
Proof. split; [cbn; auto 10|]. split; [cbn; auto 10|]. split; reflexivity. Qed.
Print Assumptions C24_subkey_extra.
Print Assumptions C24_closed_refuted.
