(** Signing and verification. *)
From Verif Require Export Model.Sign Spec.Sigs Proofs.KeyP Proofs.KeyGrammarP Proofs.MessageP Proofs.PkaP Proofs.SigcalcP.
Local Open Scope N_scope.

(** ** The public-key step *)
Lemma emsa_len hash d x L em : hash_use hash d = Ok x -> L < 2 ^ 62 -> emsa_encode hash x L = Ok em ->
  exists r, em = 0 :: r /\ len em = L /\ octets em.
Proof.
  intros H B E. unfold emsa_encode in E. inv_bind E. inv_bind E. destruct (_ <? two64 / 2) eqn:C; [|discriminate].
  inv_bind E. apply Ok_inj in E.
  assert (D : len a1 = len a / 2 /\ len a < 50 /\ octets a1 /\ N.even (len a) = true).
  { unfold asn1_der in E0. cbn [map_at] in E0.
    repeat match type of E0 with (if ?b then _ else _) = _ => destruct b; [apply Ok_inj in E0; subst a; vm_compute in E2; apply Ok_inj in E2; subst a1; repeat split; repeat constructor|] end.
    discriminate. }
  destruct D as (D1 & D2 & D3 & _). pose proof (hash_use_len _ _ _ _ H E1) as LX. apply hash_use_octets in H.
  assert (HB : a0 <= 512).
  { unfold hash_length in E1. cbn [map_at] in E1.
    repeat match type of E1 with (if ?b then _ else _) = _ => destruct b; [apply Ok_inj in E1; subst a0; vm_compute; congruence|] end.
    discriminate. }
  rewrite !N.shiftr_div_pow2 in *. change (2 ^ 1) with 2 in *. change (2 ^ 3) with 8 in *.
  change (2 ^ 62) with 4611686018427387904 in B.
  assert (F : len a / 2 + 3 + a0 / 8 <= L).
  { destruct (N.le_gt_cases (len a / 2 + 3 + a0 / 8) L) as [|X]; [assumption|exfalso].
    apply N.ltb_lt in C. change (two64 / 2) with 9223372036854775808 in C.
    unfold sub64 in C. change two64 with 18446744073709551616 in C.
    assert (A1 : len a / 2 < 50) by (apply N.div_lt_upper_bound; lia).
    assert (A2 : a0 / 8 <= 64) by (apply N.div_le_upper_bound; lia).
    set (u := len a / 2) in *. set (v := a0 / 8) in *. clearbody u v. clear - B C X A1 A2.
    rewrite (N.mod_small u), (N.mod_small v), (N.mod_small 3) in C by lia.
    assert (M : forall x y, x < 18446744073709551616 -> y <= x -> (x + (18446744073709551616 - y)) mod 18446744073709551616 = x - y).
    { intros x y Hx Hy. replace (x + (18446744073709551616 - y)) with (x - y + 1 * 18446744073709551616) by lia.
      rewrite N.mod_add by discriminate. apply N.mod_small. lia. }
    assert (M' : forall x y, x < y -> y < 18446744073709551616 -> (x + (18446744073709551616 - y)) mod 18446744073709551616 = x + (18446744073709551616 - y)).
    { intros x y Hx Hy. apply N.mod_small. lia. }
    destruct (N.le_gt_cases u L) as [Y|Y].
    - rewrite (M L u) in C by lia. destruct (N.le_gt_cases 3 (L - u)) as [W|W].
      + rewrite (M (L - u) 3) in C by lia. rewrite M' in C by lia. lia.
      + rewrite (M' (L - u) 3) in C by lia. rewrite M in C by lia. lia.
    - rewrite (M' L u) in C by lia. rewrite M in C by lia. rewrite M in C by lia. lia. }
  rewrite (sub64_small L) in E by (unfold two64; lia). rewrite (sub64_small _ 3) in E by (unfold two64; lia). rewrite sub64_small in E by (unfold two64; lia).
  subst em. exists (1 :: repeat 255 (N.to_nat (L - len a / 2 - 3 - a0 / 8)) ++ 0 :: a1 ++ x). split; [reflexivity|]. split.
  - rewrite !len_app, len_repeat. change (len [0; 1]) with 2. change (len [0]) with 1. lia.
  - apply octets_app. split; [repeat constructor|]. apply octets_app. split.
    + apply Forall_forall. intros c Hc. apply repeat_spec in Hc. subst. reflexivity.
    + constructor; [reflexivity|]. apply octets_app. auto.
Qed.
Lemma emsa_below hash d x n em : hash_use hash d = Ok x -> mpi_fits n ->
  emsa_encode hash x (N.shiftr (bitsize n) 3) = Ok em -> rawtompi em = Ok (be_val em) /\ be_val em < n.
Proof.
  intros H F E. assert (B : bitsize n <= 65528) by (apply bitsize_le; [lia|exact F]).
  apply (emsa_len _ d) in E as (r & -> & L & O); auto.
  2:{ rewrite N.shiftr_div_pow2. change (2 ^ 3) with 8. change (2 ^ 62) with 4611686018427387904. lia. }
  split; [reflexivity|]. rewrite len_cons in L. rewrite N.shiftr_div_pow2 in L. change (2 ^ 3) with 8 in L.
  assert (V : be_val (0 :: r) < 256 ^ len r).
  { change (0 :: r) with ([0] ++ r). rewrite be_val_app. apply Forall_cons_iff in O as [_ O]. pose proof (be_val_bound r O). cbn [be_val]. lia. }
  eapply N.lt_le_trans; [exact V|]. rewrite pow256.
  assert (S : 8 <= bitsize n) by lia.
  assert (2 ^ (bitsize n - 1) <= n).
  { unfold bitsize in *. destruct (N.eq_dec n 0) as [->|N0]; [cbn in S; lia|].
    replace (N.max 1 (N.size n) - 1) with (N.log2 n) by (rewrite N.size_log2 by auto; lia). apply N.log2_spec. lia. }
  etransitivity; [|eassumption]. apply N.pow_le_mono_r; lia.
Qed.

Lemma with_pka_verifies d digest pka pri pub hash draws vals draws' :
  hash_use hash d = Ok digest -> pka = 1 \/ pka = 17 -> key_pair pka pri pub -> Forall mpi_fits pub ->
  sign_with_pka digest pka pri pub hash draws = Ok (vals, draws') ->
  verify_with_pka digest hash pka pub vals = Ok 1%Z.
Proof.
  intros H [-> | ->] K FF E; unfold key_pair in K; cbn [N.eqb Pos.eqb] in K.
  - destruct K as (n & e & x & m & m' & -> & -> & (p & q & P & Q & D & OP & OQ & -> & ED)). apply Forall_cons_iff in FF as [F _].
    unfold sign_with_pka, verify_with_pka in *. cbn [N.eqb Pos.eqb orb vec_at nth_error bind] in *.
    inv_bind E. inv_bind E. apply Ok_inj in E. assert (vals = [a0]) as -> by congruence.
    rewrite E0. cbn [bind]. destruct (emsa_below _ _ _ _ _ H F E0) as [R B].
    pose proof (odd_mul p q OP OQ) as O. unfold rsa_sign_raw, rsa_verify_raw in *. rewrite R in *. cbn [bind] in *.
    unfold rsa_sign, rsa_decrypt, rsa_verify, rsa_encrypt in *. cbn [vec_at nth_error bind] in *.
    rewrite mpz_powm_ok in * by auto. apply Ok_inj in E1. cbn [bind]. subst a0.
    rewrite rsa_math; auto; [|now rewrite N.mul_comm]. now rewrite N.eqb_refl.
  - destruct K as (p & q & g & y & x & m & m' & -> & -> & K).
    unfold sign_with_pka, verify_with_pka in *. cbn [N.eqb Pos.eqb orb vec_at nth_error bind] in *.
    unfold dsa_sign_raw, dsa_verify_raw in *. inv_bind E. rewrite E0. cbn [bind].
    unfold dsa_sign in E. change (0 =? 0) with true in E. cbv iota in E.
    apply dsa_rounds_ok in E as (k' & r & s & -> & T). now rewrite (dsa_one _ _ _ _ _ _ _ _ _ _ _ K T).
Qed.
Lemma with_pka_values digest hash pka pub vals z : verify_with_pka digest hash pka pub vals = Ok z -> z = (-1)%Z \/ z = 0%Z \/ z = 1%Z.
Proof.
  unfold verify_with_pka. destruct (_ || _).
  - intros E. inv_bind E. inv_bind E. inv_bind E. apply Ok_inj in E. destruct a1; subst z; cbn; auto.
  - destruct (pka =? 17); intros E.
    + inv_bind E. apply Ok_inj in E. destruct a; subst z; cbn; auto.
    + apply Ok_inj in E. auto.
Qed.
Lemma powm_odd b e m x : mpz_powm b e m = Ok x -> N.odd m = true /\ x = b ^ e mod m.
Proof.
  intros E. pose proof E as E'. unfold mpz_powm in E. rewrite <- N.negb_odd in E. destruct (N.odd m) eqn:O; [|discriminate].
  rewrite mpz_powm_ok in E' by auto. apply Ok_inj in E'. auto.
Qed.
Lemma vec_at_inv {A} (l : list A) n x : vec_at l n = Ok x -> exists a b, l = a ++ x :: b /\ length a = n.
Proof.
  unfold vec_at. destruct (nth_error l n) eqn:E; [|discriminate]. intros H. apply Ok_inj in H. subst.
  apply nth_error_split in E as (a & b & -> & L). eauto.
Qed.
Lemma vec_at_0 {A} (l : list A) x : vec_at l 0 = Ok x -> exists r, l = x :: r.
Proof. destruct l; cbn; [discriminate|]. intros H. apply Ok_inj in H. subst. eauto. Qed.
Lemma vec_at_S {A} (l : list A) n x : vec_at l (S n) = Ok x -> exists a r, l = a :: r /\ vec_at r n = Ok x.
Proof. destruct l; cbn; [discriminate|]. eauto. Qed.
Lemma rsa_accepts hash digest pub vals em : 
  rsa_verify_raw em vals pub = Ok true -> forall n, vec_at pub 0 = Ok n -> emsa_encode hash digest (N.shiftr (bitsize n) 3) = Ok em ->
  exists n e more s more' em, pub = n :: e :: more /\ vals = s :: more' /\
     emsa_encode hash digest (bitsize n / 8) = Ok em /\ s ^ e mod n = be_val em.
Proof.
  intros E n V M. unfold rsa_verify_raw, rsa_verify, rsa_encrypt in E. apply bind_ok in E as (m & R & E).
  apply bind_ok in E as (s & S & E). apply bind_ok in E as (c & C & E). apply bind_ok in C as (e & P1 & C). apply bind_ok in C as (n' & P0 & C).
  rewrite V in P0. apply Ok_inj in P0. subst n'. apply vec_at_0 in V as (r & ->).
  apply vec_at_S in P1 as (? & r' & X & V). injection X as <- <-. apply vec_at_0 in V as (r2 & ->).
  apply vec_at_0 in S as (r3 & ->). apply Ok_inj in E. apply powm_odd in C as [_ ->].
  exists n, e, r2, s, r3, em. split; [reflexivity|]. split; [reflexivity|]. split; [now rewrite N.shiftr_div_pow2 in M|].
  apply N.eqb_eq in E. rewrite E. unfold rawtompi in R. destruct em; [discriminate|]. apply Ok_inj in R. now symmetry.
Qed.
Lemma mpz_mod_inv a m x : mpz_mod a m = Ok x -> m <> 0 /\ x = a mod m.
Proof. unfold mpz_mod. destruct (m =? 0) eqn:E; [discriminate|]. intros H. apply Ok_inj in H. split; [lia|auto]. Qed.
Lemma mod_inverse_ok s q : 1 < q -> (mod_inverse s q * s) mod q = 1 \/ (N.gcd s q <> 1 /\ mod_inverse s q = 0).
Proof. intros Q. destruct (inverse_cases s q Q) as [_ [[_ H]|H]]; auto. Qed.
Lemma dsa_accepts data vals pub : dsa_verify data vals pub = Ok true ->
  exists p q g y more r s more' w, pub = p :: q :: g :: y :: more /\ vals = r :: s :: more' /\
     (1 < q -> (w * s) mod q = 1 \/ (N.gcd s q <> 1 /\ w = 0)) /\
     (g ^ ((data * w) mod q) * y ^ ((r * w) mod q)) mod p mod q = r.
Proof.
  intros E. unfold dsa_verify in E. apply bind_ok in E as (r & R & E). apply bind_ok in E as (b1 & _ & E).
  apply bind_ok in E as (b2 & _ & E). destruct (b1 && b2); [discriminate|].
  apply bind_ok in E as (s & S & E). apply bind_ok in E as (q & Q & E). apply bind_ok in E as (w & W & E).
  apply bind_ok in E as (u1 & U1 & E). apply bind_ok in E as (u2 & U2 & E). apply bind_ok in E as (g & G & E).
  apply bind_ok in E as (p & P & E). apply bind_ok in E as (gu & GU & E). apply bind_ok in E as (y & Y & E).
  apply bind_ok in E as (yu & YU & E). apply bind_ok in E as (v & V & E). apply bind_ok in E as (v' & V' & E). apply Ok_inj in E.
  apply vec_at_0 in P as (l1 & ->). apply vec_at_S in Q as (? & ? & X & Q). injection X as <- <-. apply vec_at_0 in Q as (l2 & ->).
  apply vec_at_S in G as (? & ? & X & G). injection X as <- <-. apply vec_at_S in G as (? & ? & X & G). injection X as <- <-.
  apply vec_at_0 in G as (l3 & ->).
  apply vec_at_S in Y as (? & ? & X & Y). injection X as <- <-. apply vec_at_S in Y as (? & ? & X & Y). injection X as <- <-.
  apply vec_at_S in Y as (? & ? & X & Y). injection X as <- <-. apply vec_at_0 in Y as (l4 & ->).
  apply vec_at_0 in R as (l5 & ->). apply vec_at_S in S as (? & ? & X & S). injection X as <- <-. apply vec_at_0 in S as (l6 & ->).
  unfold invert in W. destruct (q =? 0); [discriminate|]. apply Ok_inj in W.
  apply mpz_mod_inv in U1 as [_ ->], U2 as [_ ->], V as [P0 ->], V' as [Q0 ->]. apply powm_odd in GU as [_ ->], YU as [_ ->].
  exists p, q, g, y, l4, r, s, l6, w. split; [reflexivity|]. split; [reflexivity|]. split.
  - intros Q1. subst w. now apply mod_inverse_ok.
  - apply N.eqb_eq in E. now rewrite <- N.mul_mod in E by auto.
Qed.
Lemma with_pka_accepts digest hash pka pub vals : verify_with_pka digest hash pka pub vals = Ok 1%Z -> accepts pka hash digest pub vals.
Proof.
  unfold verify_with_pka, accepts. destruct ((pka =? 1) || (pka =? 3)) eqn:C.
  - intros E. left. split; [lia|]. apply bind_ok in E as (n & P & E). apply bind_ok in E as (em & M & E). apply bind_ok in E as (b & B & E).
    apply Ok_inj in E. destruct b; [|discriminate]. exact (rsa_accepts _ _ _ _ _ B _ P M).
  - destruct (pka =? 17) eqn:D; intros E; [|apply Ok_inj in E; discriminate]. right. split; [lia|].
    apply bind_ok in E as (b & B & E). apply Ok_inj in E. destruct b; [|discriminate].
    unfold dsa_verify_raw in B. apply bind_ok in B as (m & M & B).
    assert (m = be_val digest) as -> by (unfold rawtompi in M; destruct digest; [discriminate|]; apply Ok_inj in M; auto).
    now apply dsa_accepts.
Qed.

(** ** Keys *)
Lemma same_keyid k' k : same_public k' k -> get_keyid k' = get_keyid k.
Proof.
  intros (V & T & P & M). unfold get_keyid, get_fingerprint. rewrite V, M. destruct (k_version k <? 4) eqn:L; [reflexivity|].
  destruct (k_version k =? 4) eqn:E; [|reflexivity]. unfold key_raw. now rewrite V, T, P, M, L.
Qed.
Lemma keyid_len k id : Forall mpi_fits (k_mpi k) -> get_keyid k = Ok id -> len id = 8.
Proof.
  intros F. unfold get_keyid. destruct (k_version k <? 4).
  - intros E. inv_bind E. apply vec_at_0 in E0 as (r & M). rewrite M in F. apply Forall_cons_iff in F as [F _].
    apply mpi_fits_bitsize in F. pose proof (write_MPI_len a) as L.
    apply substr_inv in E as [B ->].
    destruct (N.le_gt_cases 8 (len (write_MPI a))) as [X|X].
    + rewrite sub64_small in * by (unfold two64; lia). unfold len at 1. rewrite firstn_length, skipn_length. unfold len in *. lia.
    + exfalso. unfold sub64 in B. rewrite (N.mod_small 8) in B by (unfold two64; lia). rewrite N.mod_small in B by (unfold two64; lia).
      unfold two64 in B. lia.
  - destruct (k_version k =? 4) eqn:V; [|discriminate]. intros E. destruct (keyid_v4 k ltac:(lia)) as (fp & id' & G & E' & _ & L & _).
    unfold get_keyid in E'. replace (k_version k <? 4) with false in E' by lia. rewrite V in E'. rewrite E in E'. apply Ok_inj in E'. now subst.
Qed.
Lemma can_sign_iff t : can_sign t = true <-> In t [1; 3; 17].
Proof.
  unfold can_sign, mem. cbn [existsb In]. rewrite !orb_true_iff. rewrite !N.eqb_eq. split.
  - intros [H|[H|[H|H]]]; auto; discriminate.
  - intuition.
Qed.
(** The first packet of a meaningful key. *)
Lemma meaningful_first g : meaningful g = Ok true -> exists p rest, g_packets g = p :: rest /\ (p_tag p = 5 \/ p_tag p = 6).
Proof.
  unfold meaningful, key_meaningful. intros H.
  assert (G : forall prim sub, (prim = 5 \/ prim = 6) -> 
    (match g_packets g with
    | p0 :: ((_ :: _) as rest) =>
      if negb (p_tag p0 =? prim) then Ok false
      else
        k <- as_key p0 ;;
        o <- revocations rest ;;
        match o with
        | None => Ok false
        | Some [] => UB
        | Some (p :: r) =>
          if negb (is_user (p_tag p)) then Ok false
          else
            o <- users (p_tag p =? 13) (p_tag p =? 13) r ;;
            match o with
            | None => Ok false
            | Some (seen, r) => if negb seen then Ok false else subkeys sub (k_version k =? 3) None r
            end
        end
    | _ => Ok false
    end) = Ok true -> exists p rest, g_packets g = p :: rest /\ (p_tag p = 5 \/ p_tag p = 6)).
  { intros prim sub PR E. destruct (g_packets g) as [|p [|q r]]; try discriminate. destruct (p_tag p =? prim) eqn:T; [|discriminate].
    exists p, (q :: r). split; [reflexivity|lia]. }
  destruct (g_type g) as [|[[t|t|]|[t|t|]|]]; try discriminate; first [apply (G 5 7); [now left|exact H]|apply (G 6 14); [now right|exact H]].
Qed.
Lemma holds_as_key p k : holds p k -> exists k', as_key p = Ok k' /\ same_public k' k.
Proof. intros (k' & [B|[s B]] & S); exists k'; unfold as_key; rewrite B; auto. Qed.
Lemma primary_found g k : meaningful g = Ok true -> has_primary g k -> In (k_pka k) [1; 3; 17] ->
  exists p k', find_signing_key g = Ok (Some p) /\ as_key p = Ok k' /\ same_public k' k /\ keyid g = get_keyid k.
Proof.
  intros M (p & rest & E & H) C. destruct (meaningful_first g M) as (p' & rest' & E' & T). rewrite E in E'.
  assert (p' = p) as -> by congruence. destruct (holds_as_key p k H) as (k' & A & S). exists p, k'.
  unfold find_signing_key, keyid, primary. rewrite M. cbn [bind]. rewrite E. cbn [find_signing vec_at nth_error bind].
  replace (is_key_packet (p_tag p)) with true by (destruct T as [-> | ->]; reflexivity). rewrite A. cbn [bind].
  pose proof S as (_ & _ & P & _). apply can_sign_iff in C. rewrite <- P in C. rewrite C. repeat split; try apply S; auto. now apply same_keyid.
Qed.
Lemma signs_found g k sec : meaningful g = Ok true -> signs_with g k sec ->
  exists p, find_signing_key g = Ok (Some p) /\ as_secret p = Ok (k, sec).
Proof.
  intros M (p & rest & E & B & C). destruct (meaningful_first g M) as (p' & rest' & E' & T). rewrite E in E'.
  assert (p' = p) as -> by congruence. exists p. unfold find_signing_key, as_secret. rewrite M. cbn [bind]. rewrite E. cbn [find_signing].
  replace (is_key_packet (p_tag p)) with true by (destruct T as [-> | ->]; reflexivity). unfold as_key. rewrite B. cbn [bind].
  apply can_sign_iff in C. now rewrite C.
Qed.

(** ** Documents *)
Lemma hashed_values s l m : get_up_to_hashed (with_values s l m) = get_up_to_hashed s.
Proof. now destruct s. Qed.
Lemma trailer_values d s l m : addtrailer d (with_values s l m) = addtrailer d s.
Proof. unfold addtrailer. rewrite hashed_values. now destruct s. Qed.
Lemma to_sign_00_values d s l m : to_sign_00 d (with_values s l m) = to_sign_00 d s.
Proof. unfold to_sign_00, hashed_with, input_00. rewrite trailer_values. now destruct s. Qed.
Lemma to_sign_01_values d s l m : to_sign_01 d (with_values s l m) = to_sign_01 d s.
Proof. unfold to_sign_01, hashed_with, input_01. rewrite trailer_values. now destruct s. Qed.
Lemma to_sign_40_values s l m : to_sign_40 (with_values s l m) = to_sign_40 s.
Proof. unfold to_sign_40, hashed_with, input_40. rewrite trailer_values. now destruct s. Qed.
Lemma hashed_with_use s i x : hashed_with s i = Ok x -> exists d, hash_use (t2_hash s) d = Ok x.
Proof. unfold hashed_with. intros E. apply bind_ok in E as (d & _ & E). eauto. Qed.
Lemma finish_ok s digest k sec pass hash draws s' draws' : finish s digest k sec pass hash draws = Ok (Some s', draws') ->
  exists pri vals, decrypt_secret_keys sec pass = Ok pri /\
    sign_with_pka digest (k_pka k) pri (k_mpi k) hash draws = Ok (vals, draws') /\ vals <> [] /\
    s' = with_values s (prefix digest 2) vals.
Proof.
  unfold finish. intros E. apply bind_ok in E as (pri & D & E). apply bind_ok in E as ((vals & d) & S & E).
  exists pri, vals. destruct vals as [|v vs]; [discriminate|]. apply Ok_inj in E.
  assert (d = draws') as -> by congruence. repeat split; auto; congruence.
Qed.
Lemma verify_document_at mm g s input id digest k :
  meaningful g = Ok true -> has_primary g k -> In (k_pka k) [1; 3; 17] ->
  sig_keyid s = Ok id -> get_keyid k = Ok id -> len id <> 0 -> input s = Ok digest -> t2_left16 s = prefix digest 2 ->
  verify_document mm g (detached_of s) input = verify_with_pka digest (t2_hash s) (t2_pka s) (k_mpi k) (t2_mpi s).
Proof.
  intros M P C SI KI L I L16. destruct (primary_found g k M P C) as (p & k' & F & A & (S1 & S2 & S3 & S4) & KE).
  unfold verify_document. rewrite M. cbn [bind negb]. change (detached_meaningful (detached_of s)) with true. cbn [negb].
  change (vec_at (g_packets (detached_of s)) 0) with (Ok (new_packet 2 (PSig s))). cbn [bind].
  change (as_sig (new_packet 2 (PSig s))) with (Ok s). cbn [bind]. rewrite SI. cbn [bind]. replace (len id =? 0) with false by lia.
  rewrite KE, KI. cbn [bind]. rewrite beq_refl. cbn [negb]. rewrite I. cbn [bind]. rewrite L16, beq_refl. cbn [negb].
  rewrite F. cbn [bind]. rewrite A. cbn [bind]. unfold verify_key. now rewrite S4.
Qed.
