(** C19, C20: string-to-key specifiers. *)
From Verif Require Import Spec.Fields Spec.S2k Proofs.PacketRT Proofs.S2kP.

(** ** C19 *)

(** A specifier is read back, anywhere in a string, and reading stops right after it; the
    class is chosen from the type octet. *)
Theorem C19_roundtrip : forall pre post s, s2k_fits s ->
  exists k, s2k_class_of (s2k_type s) = Ok k /\
    at_ (pre ++ s2k_raw s ++ post) (len pre) = Ok (s2k_type s) /\
    s2k_read k (pre ++ s2k_raw s ++ post) (len pre) = Ok (s, len (pre ++ s2k_raw s)).
Proof. exact s2k_roundtrip. Qed.

(** Deriving a key gives exactly the requested number of octets, for every specifier whose
    hash is known; no bound on the passphrase or the length. *)
Theorem C19_key_length : forall s pass klen bits, s2k_fits s ->
  map_at hash_length (s2k_hash s) = Ok bits ->
  exists k, s2k_run s pass klen = Ok k /\ len k = klen.
Proof.
  intros s pass klen bits F H.
  assert (exists A, hash_alg (s2k_hash s) = Ok A) as (A & E).
  { unfold hash_length in H. cbn [map_at] in H.
    repeat (let E := fresh in destruct (_ =? s2k_hash s) eqn:E in H; [apply N.eqb_eq in E; rewrite <- E; eexists; reflexivity|clear E]).
    discriminate. }
  apply (run_len s pass klen A E). intros K. unfold s2k_fits in F. rewrite K in F.
  assert (L : len (s2k_salt s) = 8) by (destruct (s2k_type s) as [|[[t|t|]|t|]]; try tauto; destruct F as (X & Y & Z); try discriminate; auto).
  destruct (s2k_salt s); [discriminate|easy].
Qed.
(** An unknown hash is refused, whatever the specifier. *)
Theorem C19_unknown_hash : forall s pass klen, ~ In (s2k_hash s) [1; 2; 3; 8; 9; 10; 11] -> 0 < klen ->
  exists e, s2k_run s pass klen = Throw e.
Proof.
  intros s pass klen H K.
  assert (E : hash_alg (s2k_hash s) = Throw ERuntime).
  { unfold hash_alg. cbn [In] in H.
    repeat match goal with |- context [match ?x with _ => _ end] => destruct x; try reflexivity end; exfalso; apply H; tauto. }
  assert (M : map_at hash_length (s2k_hash s) = Throw EOutOfRange).
  { unfold hash_length. cbn [map_at]. cbn [In] in H.
    repeat (destruct (_ =? s2k_hash s) eqn:Q at 1; [apply N.eqb_eq in Q; exfalso; apply H; tauto|clear Q]). reflexivity. }
  unfold s2k_run. destruct (s2k_kind s).
  1,2: cbn [s2k_loop]; replace (len [] <? klen) with true by (rewrite len_nil; lia); unfold hash_use; rewrite E; cbn [bind]; eauto.
  rewrite M. cbn [bind]. eauto.
Qed.

(** ** C20 *)

(** Missing: 4 GiB of passphrase and more, where the hash objects go wrong (C51).
    What is hashed: for the iterated kind, the first max(count, one copy) octets of the
    repetition of salt and passphrase; context i puts i zero octets first; the digests in a
    row are cut to the requested length. *)
Theorem C20_hashed_octets_partial : forall s pass klen A, s2k_fits s -> hash_alg (s2k_hash s) = Ok A ->
  octets (s2k_salt s) -> octets pass -> len pass + klen < 2 ^ 32 - 136 ->
  exists h, map_at shapes (s2k_hash s) = Ok h /\
  s2k_run s pass klen = Ok (s2k_key (digest_spec A h) (s2k_input s pass) klen).
Proof.
  intros s pass klen A F HA Os Op HL. destruct (hash_agrees _ A HA) as (h & E & G). exists h. split; [exact E|].
  assert (L : len (s2k_salt s) <= 8 /\ s2k_count s < 256 /\ (s2k_kind s = S2K3 -> s2k_salt s ++ pass <> [])).
  { unfold s2k_fits in F. destruct (s2k_type s) as [|[[t|t|]|t|]]; try tauto; destruct F as (X & Y & Z).
    - rewrite Y, Z, X. cbn. split; [lia|]. split; [lia|discriminate].
    - split; [lia|]. split; [lia|]. intros _. destruct (s2k_salt s); [discriminate|easy].
    - rewrite X. split; [lia|]. split; [lia|]. discriminate. }
  destruct L as (L1 & L2 & L3). apply run_spec; auto.
  change (2 ^ 32 - 136) with 4294967160 in HL. change (2 ^ 32 - 128) with 4294967168. lia.
Qed.
(** The coded count of RFC 4880 and the number of octets hashed. *)
Theorem C20_octets_hashed : forall s pass, s2k_fits s -> s2k_kind s = S2K3 ->
  len (s2k_input s pass) = N.max (len (s2k_salt s ++ pass)) ((16 + s2k_count s mod 16) * 2 ^ (s2k_count s / 16 + 6)) /\
  (exists t, s2k_input s pass = s2k_salt s ++ pass ++ t).
Proof.
  intros s pass F K. unfold s2k_fits in F. rewrite K in F.
  assert (L : len (s2k_salt s) = 8) by (destruct (s2k_type s) as [|[[t|t|]|t|]]; try tauto; destruct F as (X & Y & Z); try discriminate; auto).
  assert (N0 : s2k_salt s ++ pass <> []) by (destruct (s2k_salt s); [discriminate|easy]).
  unfold s2k_input. rewrite K. split; [now apply cycle_len|].
  set (c := s2k_salt s ++ pass) in *. unfold cycle. set (n := N.max _ _).
  assert (P : (length c <= N.to_nat n)%nat) by (unfold n, len; lia).
  assert (P1 : (1 <= length c)%nat) by (destruct c; [easy|cbn; lia]).
  destruct (N.to_nat n) as [|m] eqn:E; [lia|]. cbn [repeat concat]. rewrite firstn_app, firstn_all2 by lia.
  exists (firstn (S m - length c) (concat (repeat c m))). unfold c at 1. now rewrite <- app_assoc.
Qed.

Definition s2k_ex : s2k := mkS2k S2K3 3 8 [1; 2; 3; 4; 5; 6; 7; 8] 96.
Example C19_ex : s2k_fits s2k_ex /\ map_at hash_length (s2k_hash s2k_ex) = Ok 256 /\ coded_count 96 = 65536.
Proof. repeat split; reflexivity. Qed.
Example C20_ex : octet_count 0 = 1024 /\ octet_count 255 = 65011712 /\
  len (s2k_input s2k_ex (str "secret")) = 65536 /\ cycle (str "abc") 8 = str "abcabcab".
Proof. split; [reflexivity|]. split; [reflexivity|]. split; [|reflexivity]. unfold s2k_input, s2k_ex. cbn [s2k_kind]. rewrite cycle_len by discriminate. reflexivity. Qed.
(** A simple key of 24 octets from 20-octet digests needs a second context. *)
Example C19_two_contexts : exists k, s2k_run (mkS2k S2K0 0 2 [] 0) (str "pw") 24 = Ok k /\ len k = 24.
Proof. eexists. split; vm_compute; reflexivity. Qed.

Print Assumptions C19_roundtrip.
Print Assumptions C19_key_length.
Print Assumptions C19_unknown_hash.
Print Assumptions C20_hashed_octets_partial.
Print Assumptions C20_octets_hashed.
