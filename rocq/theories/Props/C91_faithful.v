(** C91: reading packets from what is printed about them. *)
From Verif Require Import Proofs.Lib Proofs.TimesP Proofs.MpiP Proofs.IncludesP Proofs.ShowP Props.C84 Props.C91 Spec.Printable.
Local Open Scope N_scope.

(** *** Outlines. *)
Fixpoint flat (i : nat) (t : tree) : list (nat * bytes) := match t with Tree h l => (i, h) :: flat_map (flat (S i)) l end.
Definition line_text (n : nat) (x : nat * bytes) : bytes := repeat 32 (n * fst x) ++ snd x ++ [10].
Fixpoint weight (t : tree) : nat := match t with Tree _ l => S (list_sum (map weight l)) end.
Lemma drawn_flat n : forall w t i, (weight t <= w)%nat -> drawn n i t = concat (map (line_text n) (flat i t)).
Proof.
  induction w as [|w IH]; intros [h l] i W; [cbn in W; lia|]. cbn [drawn flat map concat]. unfold line_text at 1. cbn [fst snd]. rewrite <- !app_assoc. do 3 f_equal.
  cbn [weight] in W. assert (L : (list_sum (map weight l) <= w)%nat) by lia. clear W. induction l as [|t l IHl]; [reflexivity|]. cbn [map concat flat_map]. cbn [map list_sum fold_right] in L.
  rewrite map_app, concat_app. f_equal; [apply IH|apply IHl]; unfold list_sum in *; lia.
Qed.
Lemma forest_flat n i ts : concat (map (drawn n i) ts) = concat (map (line_text n) (flat_map (flat i) ts)).
Proof. induction ts as [|t ts IH]; [reflexivity|]. cbn [map concat flat_map]. rewrite map_app, concat_app, <- IH. f_equal. now apply (drawn_flat n (weight t)). Qed.
Definition neat (h : bytes) : Prop := single h /\ forall r, h <> 32 :: r.
Lemma clean_flat : forall w t i, (weight t <= w)%nat -> clean t -> Forall (fun x => neat (snd x)) (flat i t).
Proof.
  induction w as [|w IH]; intros [h l] i W C; [cbn in W; lia|]. inversion C as [h' l' S B F]; subst. cbn [flat]. constructor; [split; assumption|].
  cbn [weight] in W. assert (L : (list_sum (map weight l) <= w)%nat) by lia. clear W C S B. induction F as [|t l Ct F IHl]; [constructor|]. cbn [flat_map]. cbn [map list_sum fold_right] in L.
  apply Forall_app. split; [apply IH; [unfold list_sum in *; lia|exact Ct]|apply IHl; unfold list_sum in *; lia].
Qed.
Lemma forest_neat ts i : Forall clean ts -> Forall (fun x => neat (snd x)) (flat_map (flat i) ts).
Proof. induction 1 as [|t ts C F IH]; [constructor|]. cbn [flat_map]. apply Forall_app. split; [now apply (clean_flat (weight t))|exact IH]. Qed.
Lemma blanks_same : forall a b h k, (forall r, h <> 32 :: r) -> (forall r, k <> 32 :: r) -> repeat 32 a ++ h = repeat 32 b ++ k -> a = b /\ h = k.
Proof.
  induction a as [|a IH]; intros [|b] h k H K E; cbn [repeat app] in E.
  - auto.
  - exfalso. eapply H. exact E.
  - exfalso. eapply K. symmetry. exact E.
  - injection E as E. destruct (IH b h k H K E) as [-> ->]. auto.
Qed.
Lemma texts_same n : (1 <= n)%nat -> forall l m, Forall (fun x => neat (snd x)) l -> Forall (fun x : nat * bytes => neat (snd x)) m ->
  concat (map (line_text n) l) = concat (map (line_text n) m) -> l = m.
Proof.
  intros N l m A. revert m. induction A as [|[i h] l [Sh Bh] A IH]; intros m B E.
  - destruct B as [|[j k] m _ B]; [reflexivity|]. exfalso. cbn [map concat] in E. unfold line_text at 1 in E. apply (f_equal len) in E. rewrite !len_app, !len_cons in E. rewrite len_nil in E. lia.
  - destruct B as [|[j k] m [Sk Bk] B]; cbn [map concat] in E; unfold line_text at 1 in E; cbn [fst snd] in *.
    + exfalso. apply (f_equal len) in E. rewrite !len_app, !len_cons in E. rewrite len_nil in E. lia.
    + unfold line_text at 2 in E. cbn [fst snd] in E. rewrite <- !app_assoc in E. cbn [app] in E. rewrite !app_assoc in E.
      assert (P : forall a h, single h -> ~ In 10 (repeat 32 a ++ h)) by (intros a x S I; apply in_app_or in I as [I|I]; [apply repeat_spec in I; discriminate|exact (S I)]).
      rewrite <- (app_assoc _ [10]), <- (app_assoc (repeat 32 (n * j) ++ k) [10]) in E || idtac. cbn [app] in E.
      apply cut in E as [E1 E2]; [|apply P; assumption..]. apply blanks_same in E1 as [E1 ->]; [|assumption..]. apply Nat.mul_cancel_l in E1; [|lia]. subst j. f_equal. exact (IH m B E2).
Qed.
Definition lower (i : nat) (l : list (nat * bytes)) : Prop := match l with [] => True | (j, _) :: _ => (j < i)%nat end.
Lemma lower_forest i ts r : lower i r -> lower (S i) (flat_map (flat i) ts ++ r).
Proof. destruct ts as [|[h l] ts]; cbn; [|lia]. destruct r as [|[j k] r]; cbn; lia. Qed.
Lemma forests_same : forall w ts us i r s, (list_sum (map weight ts) <= w)%nat -> lower i r -> lower i s ->
  flat_map (flat i) ts ++ r = flat_map (flat i) us ++ s -> ts = us /\ r = s.
Proof.
  induction w as [|w IH]; intros ts us i r s W R S E.
  - destruct ts as [|[h l] ts]; [|cbn in W; lia]. destruct us as [|[h l] us]; [auto|]. cbn in E. subst r. cbn in R. lia.
  - destruct ts as [|[h l] ts].
    + destruct us as [|[h l] us]; [auto|]. cbn in E. subst r. cbn in R. lia.
    + destruct us as [|[h' l'] us]; [cbn in E; subst s; cbn in S; lia|]. cbn [flat_map flat app] in E. injection E as Eh E. subst h'. rewrite <- !app_assoc in E.
      unfold list_sum in W. cbn [map weight fold_right] in W. fold (list_sum (map weight l)) in W. fold (list_sum (map weight ts)) in W.
      apply IH in E as [-> E]; [|unfold list_sum in *; lia|now apply lower_forest|now apply lower_forest].
      apply IH in E as [-> ->]; [auto|unfold list_sum in *; lia|assumption|assumption].
Qed.
(** What is printed as clean outlines, indented at all, has only one reading. *)
Theorem C91_outline n i ts us : (1 <= n)%nat -> Forall clean ts -> Forall clean us -> concat (map (drawn n i) ts) = concat (map (drawn n i) us) -> ts = us.
Proof.
  intros N A B E. rewrite !forest_flat in E. apply texts_same in E; [|exact N|now apply forest_neat|now apply forest_neat].
  apply (forests_same (list_sum (map weight ts)) ts us i [] []); [lia|exact I|exact I|]. now rewrite !app_nil_r.
Qed.

(** *** Lines. *)
Lemma cut_back (c : N) a b r s : ~ In c r -> ~ In c s -> a ++ c :: r = b ++ c :: s -> a = b /\ r = s.
Proof.
  intros R S E. apply (f_equal (@rev N)) in E. rewrite !rev_app_distr in E. cbn [rev] in E. rewrite <- !app_assoc in E. cbn [app] in E.
  apply cut in E as [E1 E2]; [|rewrite <- in_rev; assumption..]. split; [rewrite <- (rev_involutive a), E2, rev_involutive; reflexivity|rewrite <- (rev_involutive r), E1, rev_involutive; reflexivity].
Qed.
Lemma decimal_same a b : Times.decimal a = Times.decimal b -> a = b.
Proof. intros E. rewrite <- (decimal_number a), <- (decimal_number b). now f_equal. Qed.
Lemma hex_same a b : octets a -> octets b -> hexlify a = hexlify b -> a = b.
Proof. intros A B E. pose proof (hex_roundtrip false a A) as X. pose proof (hex_roundtrip false b B) as Y. unfold hexlify in E. rewrite E, Y in X. now injection X. Qed.
Lemma named_same t kind a b : named t kind a = named t kind b -> a = b.
Proof.
  unfold named. intros E. rewrite !app_assoc in E. apply app_inv_tail in E. change (str " ") with [32] in E. rewrite <- !(app_assoc _ [32]) in E. cbn [app] in E.
  apply cut_back in E as [_ E]; [now apply decimal_same|apply decimal_plain..].
Qed.
Lemma mapped_plain t k : Forall (fun x => single (snd x)) t -> single (mapped t k).
Proof. induction 1 as [|[x s] t S F IH]; [apply (str_plain "Unknown"); reflexivity|]. cbn [mapped]. destruct (x =? k); [exact S|exact IH]. Qed.
Definition plain_table (t : list (N * bytes)) : bool := forallb (fun x => negb (existsb (N.eqb 10) (snd x))) t.
Lemma table_plain t : plain_table t = true -> Forall (fun x => single (snd x)) t.
Proof.
  intros E. apply Forall_forall. intros x I J. unfold plain_table in E. rewrite forallb_forall in E. specialize (E x I). cbv beta in E.
  assert (X : existsb (N.eqb 10) (snd x) = true) by (apply existsb_exists; exists 10; auto). apply Bool.negb_true_iff in E. discriminate (eq_trans (eq_sym X) E).
Qed.
Lemma named_plain t kind k : plain_table t = true -> existsb (N.eqb 10) (str kind) = false -> single (named t kind k).
Proof.
  intros T K. unfold named. apply app_plain; [now apply mapped_plain, table_plain|]. repeat apply app_plain; try (now apply str_plain). apply decimal_plain.
Qed.
Lemma neat_labelled label s : existsb (N.eqb 10) (str label) = false -> match str label with c :: _ => c <> 32 | [] => False end -> single s -> neat (str label ++ s).
Proof.
  intros L B S. split; [apply app_plain; [now apply str_plain|exact S]|]. intros r E. destruct (str label) as [|c x]; [contradiction|]. cbn [app] in E. injection E as E _. contradiction.
Qed.
Definition leaf (s : bytes) : tree := Tree s [].
Lemma leaf_clean s : neat s -> clean (leaf s).
Proof. intros [S B]. now constructor. Qed.

(** *** The outline of each packet. *)
Definition session_names (pka : N) : list string := if pka <=? 3 then ["RSA m**e mod n"]%string else ["ELGAMAL g**k mod p"; "ELGAMAL m * y**k mod p"]%string.
Definition raw_line (tag : N) (d : bytes) : bytes :=
  match tag with
  | 9 => str "Encrypted Data (" ++ Times.decimal (len d) ++ str " octets): " ++ hexlify d
  | 10 => d
  | 12 => str "Data (" ++ Times.decimal (len d) ++ str " octets): " ++ d
  | 13 => str "User ID: " ++ d
  | 19 => str "SHA - 1 Hash of previous packet: " ++ d
  | _ => hexlify d
  end.
Definition s2k_lines (s : s2k) : list bytes :=
  let hash := [str "Hash: " ++ named hash_name "hash" (s2k_hash s)] in
  let salt := [str "Salt: " ++ hexlify (s2k_salt s)] in
  match s2k_kind s with
  | S2K0 => hash | S2K1 => hash ++ salt
  | S2K3 => hash ++ salt ++ [str "Coded Count: " ++ Times.decimal (coded_count (s2k_count s)) ++ str " (count " ++ Times.decimal (s2k_count s) ++ str ")"]
  end.
Definition s2k_tree (s : s2k) : tree := Tree (mapped s2k_name (s2k_type s) ++ str " (s2k " ++ Times.decimal (s2k_type s) ++ str "):") (map leaf (s2k_lines s)).
Definition secret_names (pka : N) : list string := if is_RSA pka then ["RSA d"; "RSA p"; "RSA q"; "RSA u"]%string else if pka =? 16 then ["ELGAMAL x"%string] else ["DSA x"%string].
Definition secret_line (n : string) (a : N) : bytes := str n ++ str ": (" ++ Times.decimal (bitsize a) ++ str ") bits: " ++ mpitohex a.
Definition lock_name (pka con : N) : bytes :=
  (if is_RSA pka then str "RSA d, p, q, u" else if pka =? 16 then str "ELGAMAL x" else if pka =? 17 then str "DSA x" else str "Unknown") ++ str " + " ++
  (if con =? 254 then str "SHA1 hash" else str "2 Octet Checksum") ++ str ": ".
Definition secret_parts (pka : N) (x : secret) (ts : list tree) : Prop :=
  match sk_s2k x with
  | Some s => ts = [leaf (str "String-to-Key Usage Conventions: " ++ Times.decimal (sk_con x)); leaf (str "Symmetric Key Algorithm: " ++ named sym_name "sym" (sk_sym x)); s2k_tree s;
                    leaf (str "IV: " ++ hexlify (sk_iv x)); Tree (str "Encrypted Data (" ++ Times.decimal (len (sk_secret x)) ++ str " octets):") [leaf (lock_name pka (sk_con x) ++ hexlify (sk_secret x))]]
  | None => exists l c, sk_secret x = concat (map write_MPI l) ++ c /\ length l = length (secret_names pka) /\ octets c /\
      ts = map leaf (map (fun y => secret_line (fst y) (snd y)) (combine (secret_names pka) l) ++ [str "2 Octet Checksum : " ++ hexlify c])
  end.
(** Signatures. *)
Definition octet_line (label : string) (t : list (N * bytes)) (kind : string) (c : N) : bytes := str label ++ mapped t c ++ str " (" ++ str kind ++ str " " ++ decimal_z (signed_char c) ++ str ")".
Definition bit_line (t : list (N * bytes)) (text : N -> bytes) (b : N) : bytes := str "Flag - " ++ mapped t (2 ^ b) ++ text (2 ^ b).
Definition bit_text (t : list (N * bytes)) (text : N -> bytes) (l : bytes) : list bytes :=
  flat_map (fun o => flat_map (fun b => if N.testbit o b then [bit_line t text b] else []) [0; 1; 2; 3; 4; 5; 6; 7]) l.
Definition feature_mask (m : N) : bytes := str " (feat " ++ Times.decimal m ++ str ")".
Definition sub_text (v : viewer) (created : N) (s : sub tag2) (ls : list bytes) : Prop :=
  match s with
  | Sub2 t => exists d, date v t = Ok d /\ ls = [str "Creation Time: " ++ d]
  | Sub4 b => ls = [str "Exportable: " ++ truth b]
  | Sub5 l a => ls = [str "Trust Level: " ++ Times.decimal l; str "Trust Amount: " ++ Times.decimal a]
  | Sub7 b => ls = [str "Revocable: " ++ truth b]
  | Sub11 l => ls = map (octet_line "sym alg - " sym_name "sym") l
  | Sub16 k => ls = [str "Key ID: " ++ hexlify k]
  | Sub21 l => ls = map (octet_line "hash alg - " hash_name "hash") l
  | Sub22 l => ls = map (octet_line "comp alg - " comp_name "comp") l
  | Sub24 d => ls = [str "URI - " ++ d]
  | Sub25 b => ls = [str "Primary: " ++ truth b]
  | Sub26 d => ls = [str "Policy - " ++ d]
  | Sub28 d => ls = [str "ID: " ++ d]
  | Sub29 c r => ls = [str "Reason " ++ Times.decimal c ++ str " - " ++ mapped revoke_name c; str "Comment - " ++ r]
  | Sub31 p h d => ls = [str "Public Key Algorithm: " ++ named pka_name "pka" p; str "Hash Algorithm: " ++ named hash_name "hash" h; str "Hash: " ++ hexlify d]
  | Sub3 t => exists d, (if t =? 0 then Ok (str "Never") else date v t) = Ok d /\ ls = [str "Signature Expiration Time (Days): " ++ d]
  | Sub6 r => ls = [str "Regular Expression: " ++ r]
  | Sub10 d => ls = [d]
  | Sub12 c p d => ls = [str "Class: " ++ Times.decimal c; str "Public Key Algorithm: " ++ named pka_name "pka" p; str "Fingerprint: " ++ d]
  | Sub20 l m n => ls = map (octet_line "Flag - " notation_name "not") l ++ [str "Name: " ++ m; str "Value: " ++ n]
  | Sub23 l => ls = bit_text ksp_name hex_of_mask l
  | Sub27 l => ls = bit_text key_flag_name hex_of_mask l
  | Sub30 l => ls = bit_text feature_name feature_mask l
  | Sub9 t => exists d, (if t =? 0 then Ok (str "Never") else date v (u32 (created + t))) = Ok d /\ ls = [str "Key Expiration Time: " ++ d]
  | _ => False
  end.
Definition sub_tells (v : viewer) (R : tag2 -> list tree -> Prop) (created : N) (c : bool * sub tag2) (t : tree) : Prop :=
  match t with Tree h us => sub_title v c = Ok h /\
    ((exists ls, sub_text v created (snd c) ls /\ us = map leaf ls) \/ exists e k ts, snd c = Sub32 (Some e) /\ us = [Tree k ts] /\ tag_title NEW NOT_PARTIAL 2 = Ok k /\ R e ts) end.
Definition now (created : N) (c : bool * sub tag2) : N := match snd c with Sub2 t => t | _ => created end.
Inductive subs_tell (v : viewer) (R : tag2 -> list tree -> Prop) : N -> list (bool * sub tag2) -> list tree -> Prop :=
| tell_none created : subs_tell v R created [] []
| tell_more created c t l ts : sub_tells v R (now created c) c t -> subs_tell v R (now created c) l ts -> subs_tell v R created (c :: l) (t :: ts).
Definition sig_names (pka : N) : list string := if is_RSA pka then ["RSA m**d mod n"]%string else ["DSA r"; "DSA s"]%string.
Definition type_text (type : N) : bytes := str "Signature Type: " ++ mapped sigtype_name type ++ str " (type 0x" ++ makehex type 2 ++ str ")".
Definition folder (title : string) (ts : list tree) : list tree := match ts with [] => [] | _ => [Tree (str title) ts] end.
Definition sig_tail (left16 : bytes) (pka : N) (mpi : list N) : list tree :=
  leaf (str "Hash Left 16 Bits: " ++ hexlify left16) :: map leaf (map (fun x => with_bits (fst x) (snd x)) (combine (sig_names pka) mpi)).
Definition sig_parts (v : viewer) (R : tag2 -> list tree -> Prop) (s : tag2) (ts : list tree) : Prop :=
  match s with
  | mkTag2 version type pka hash mpi left16 time keyid hashed unhashed =>
    if version =? 3 then exists d, date v time = Ok d /\
      ts = leaf (str "Version: 3") :: Tree (str "Hashed Material:") (map leaf [type_text type; str "Creation Time: " ++ d; str "Signer's Key ID: " ++ hexlify keyid;
             str "Public Key Algorithm: " ++ named pka_name "pka" pka; str "Hash Algorithm: " ++ named hash_name "hash" hash]) :: sig_tail left16 pka mpi
    else exists hs us, subs_tell v R 0 hashed hs /\ subs_tell v R 0 unhashed us /\
      ts = map leaf [str "Version: 4"; type_text type; str "Public Key Algorithm: " ++ named pka_name "pka" pka; str "Hash Algorithm: " ++ named hash_name "hash" hash] ++
           folder "Hashed Sub:" hs ++ folder "Unhashed Sub:" us ++ sig_tail left16 pka mpi
  end.
Fixpoint nested_parts (v : viewer) (depth : nat) : tag2 -> list tree -> Prop := match depth with O => sig_parts v (fun _ _ => False) | S d => sig_parts v (nested_parts v d) end.
Definition parts (v : viewer) (tag : N) (c : contents) (ts : list tree) : Prop :=
  match c with
  | PKey k => exists d, date v (k_time k) = Ok d /\ ts = map leaf (key_lines k d)
  | PRaw d => ts = [leaf (raw_line tag d)]
  | PProtected version d => ts = map leaf [str "Version: " ++ Times.decimal version; str "Encrypted Data (" ++ Times.decimal (len d) ++ str " octets): " ++ hexlify d]
  | POnePass version type hash pka keyid last =>
    ts = map leaf [str "Version: " ++ Times.decimal version; str "Signature Type: " ++ named sigtype_name "sig" type; str "Hash Algorithm: " ++ named hash_name "hash" hash;
      str "Public Key Algorithm: " ++ named pka_name "pka" pka; str "KeyID: " ++ hexlify keyid; str "Last: " ++ Times.decimal last]
  | PSession version keyid pka mpi =>
    ts = map leaf ([str "Version: " ++ Times.decimal version; str "KeyID: " ++ hexlify keyid; str "Public Key Algorithm: " ++ named pka_name "pka" pka] ++
      map (fun x => with_bits (fst x) (snd x)) (combine (session_names pka) mpi))
  | PLiteral format name time data => exists d, date v time = Ok d /\
    ts = [leaf (str "Data_Format: " ++ mapped literal_name format);
          Tree (str "Data (" ++ Times.decimal (1 + len name + 4 + len data) ++ str " octets):") (map leaf [str "Filename: " ++ name; str "Creation Date: " ++ d; str "Data: " ++ data])]
  | PSymSession version sym (Some s) esk =>
    ts = map leaf [str "Version: " ++ Times.decimal version; str "Symmetric Key Algorithm: " ++ named sym_name "sym" sym] ++ s2k_tree s ::
         match esk with Some e => [leaf (str "Encrypted Session Key: " ++ hexlify e)] | None => [] end
  | PSecret k x => exists d st, date v (k_time k) = Ok d /\ secret_parts (k_pka k) x st /\ ts = map leaf (key_lines k d) ++ st
  | PSig s => exists depth, nested depth s /\ nested_parts v depth s ts
  | _ => False
  end.
Lemma says_shaped l : shaped (map Say l) (map leaf l).
Proof. induction l as [|s l IH]; [constructor|]. cbn [map]. now constructor. Qed.
Lemma full_whole k : full_key k -> whole_key k.
Proof. exact (fun H => H). Qed.
Lemma session_fits pka (mpi : list N) : pka <= 3 /\ length mpi = 1%nat \/ pka = 16 /\ length mpi = 2%nat -> length mpi = length (session_names pka).
Proof. unfold session_names. intros [[P L]|[-> L]]; rewrite L; [|reflexivity]. now replace (pka <=? 3) with true by lia. Qed.
Lemma s2k_shaped s l : plain_s2k s -> s2k_show s = Ok l -> shaped l [s2k_tree s].
Proof.
  intros P E. destruct P; unfold s2k_show in E; cbn [s2k_type s2k_kind s2k_hash s2k_salt s2k_count] in E; apply bind_ok in E as (n & En & E); vm_compute in En; apply Ok_inj in En as <-; apply Ok_inj in E as <-;
    apply (shaped_below _ _ (map leaf _)).
  - apply (says_shaped [_]).
  - apply (says_shaped [_; _]).
  - apply (says_shaped [_; _; _]).
Qed.
Lemma secret_fits pka l : secret_count pka l -> length l = length (secret_names pka).
Proof.
  intros [[I L]|[I L]]; rewrite L; cbn in I; decompose [or] I; try contradiction; subst pka; reflexivity.
Qed.
Lemma secret_read names : forall l pre c, length l = length names -> Forall (fun a => bitsize a <= 65528) l ->
  secret_numbers names (pre ++ concat (map write_MPI l) ++ c) (len pre) = Ok (map Say (map (fun y => secret_line (fst y) (snd y)) (combine names l)), len pre + len (concat (map write_MPI l))).
Proof.
  induction names as [|n names IH]; intros [|a l] pre c L F; try discriminate; cbn [secret_numbers combine map concat].
  - rewrite len_nil, N.add_0_r. reflexivity.
  - inversion F as [|a' l' B F']; subst. rewrite <- app_assoc. rewrite read_write_MPI by (reflexivity || exact B). cbn [bind].
    specialize (IH l (pre ++ write_MPI a) c ltac:(cbn in L; lia) F'). rewrite <- app_assoc, len_app in IH. rewrite IH. cbn [bind]. rewrite len_app, N.add_assoc. reflexivity.
Qed.
Lemma key_says v k : full_key k -> forall l, key_show v k = Ok l -> exists d, date v (k_time k) = Ok d /\ l = map Say (key_lines k d).
Proof.
  intros F l E. assert (D : exists d, date v (k_time k) = Ok d) by (unfold key_show in E; destruct (date v (k_time k)); [eauto|discriminate..]). destruct D as (d & D).
  rewrite (key_text v k d (full_whole k F) D) in E. apply Ok_inj in E as <-. eauto.
Qed.
Lemma octet_says label t kind l : octet_lines label t kind l = map Say (map (octet_line label t kind) l).
Proof. unfold octet_lines. rewrite map_map. reflexivity. Qed.
Lemma bit_says t text : forall l, bit_lines t text l = map Say (bit_text t text l).
Proof.
  intros l. unfold bit_lines, bit_text, bit_line. generalize [0; 1; 2; 3; 4; 5; 6; 7] as q. intros q. induction l as [|o l IH]; [reflexivity|]. cbn [flat_map]. rewrite map_app, <- IH. f_equal.
  clear. induction q as [|b q IH]; [reflexivity|]. cbn [flat_map]. rewrite map_app, <- IH. destruct (N.testbit o b); reflexivity.
Qed.
Definition prints (emb : tag2 -> result (list event)) (O : tag2 -> Prop) (R : tag2 -> list tree -> Prop) : Prop :=
  forall e l, O e -> emb e = Ok l -> exists k ts, shaped l [Tree k ts] /\ tag_title NEW NOT_PARTIAL 2 = Ok k /\ R e ts.
Lemma sub_shaped v emb O R created c l : prints emb O R -> sub_with O (snd c) -> sub_show v emb created c = Ok l -> exists t, shaped l [t] /\ sub_tells v R created c t.
Proof.
  intros M [P|(e & Pe & Pp)] E; unfold sub_show in E.
  2: { apply bind_ok in E as (h & Eh & E). rewrite Pe in E. cbn [sub_lines] in E. apply bind_ok in E as (x & Ex & E). apply Ok_inj in E as <-. destruct (M e x Pp Ex) as (k & ts & Sh & Ek & Re).
    exists (Tree h [Tree k ts]). split; [now apply shaped_below|]. split; [exact Eh|]. right. exists e, k, ts. auto. }
  apply bind_ok in E as (h & Eh & E). apply bind_ok in E as (x & Ex & E). apply Ok_inj in E as <-.
  assert (X : exists ls, x = map Say ls /\ sub_text v created (snd c) ls).
  { destruct P; cbn [sub_lines sub_text] in *; try (apply Ok_inj in Ex as <-); try (rewrite octet_says); try (rewrite bit_says).
    - apply bind_ok in Ex as (d & D & Ex). apply Ok_inj in Ex as <-. eexists [_]. split; [reflexivity|eauto].
    - eexists [_]. split; reflexivity.
    - eexists [_; _]. split; reflexivity.
    - eexists [_]. split; reflexivity.
    - eexists. split; reflexivity.
    - eexists [_]. split; reflexivity.
    - eexists. split; reflexivity.
    - eexists. split; reflexivity.
    - eexists [_]. split; reflexivity.
    - eexists [_]. split; reflexivity.
    - eexists [_]. split; reflexivity.
    - eexists [_]. split; reflexivity.
    - replace (c0 =? 0) with false by lia. eexists [_; _]. split; reflexivity.
    - eexists [_; _; _]. split; reflexivity.
    - apply bind_ok in Ex as (d & D & Ex). apply Ok_inj in Ex as <-. eexists [_]. split; [reflexivity|eauto].
    - eexists [_]. split; reflexivity.
    - eexists [_]. split; reflexivity.
    - eexists [_; _; _]. split; reflexivity.
    - eexists. split; [|reflexivity]. rewrite map_app. reflexivity.
    - eexists. split; reflexivity.
    - eexists. split; reflexivity.
    - eexists. split; reflexivity.
    - apply bind_ok in Ex as (d & D & Ex). apply Ok_inj in Ex as <-. eexists [_]. split; [reflexivity|eauto]. }
  destruct X as (ls & -> & X). exists (Tree h (map leaf ls)). split; [apply shaped_below, says_shaped|]. split; [exact Eh|left; eauto].
Qed.
Lemma subs_shaped v emb O R : prints emb O R -> forall l created e, Forall (fun c => sub_with O (snd c)) l -> subs_show v emb created l = Ok e -> exists ts, shaped e ts /\ subs_tell v R created l ts.
Proof.
  intros M. induction l as [|c l IH]; intros created e F E; cbn in E; [apply Ok_inj in E as <-; exists []; split; constructor|]. inversion F as [|c' l' P F']; subst.
  apply bind_ok in E as (x & Ex & E). apply bind_ok in E as (y & Ey & E). apply Ok_inj in E as <-. destruct (sub_shaped _ _ _ _ _ _ _ M P Ex) as (t & S & T). destruct (IH _ _ F' Ey) as (ts & Ss & Ts).
  exists (t :: ts). split; [apply (shaped_app _ [t]); assumption|now constructor].
Qed.
Lemma sig_fits pka l : sig_count pka l -> length l = length (sig_names pka).
Proof. intros [[I L]|[I L]]; rewrite L; [cbn in I; decompose [or] I; try contradiction; subst pka; reflexivity|subst pka; reflexivity]. Qed.
Lemma sig_numbers pka mpi : sig_count pka mpi -> (if is_RSA pka then numbers ["RSA m**d mod n"%string] 0 mpi else if pka =? 17 then numbers ["DSA r"; "DSA s"]%string 0 mpi else Ok []) =
  Ok (map Say (map (fun x => with_bits (fst x) (snd x)) (combine (sig_names pka) mpi))).
Proof.
  intros C. pose proof (numbers_all _ [] mpi (sig_fits pka mpi C)) as NA. cbn [length app] in NA. rewrite map_map, <- NA. unfold sig_names. destruct (is_RSA pka) eqn:R; [reflexivity|].
  destruct C as [[I _]|[-> _]]; [|reflexivity]. exfalso. cbn in I. decompose [or] I; try contradiction; subst pka; discriminate.
Qed.
Lemma folder_shaped v emb O R title l h : prints emb O R -> Forall (fun c => sub_with O (snd c)) l ->
  match l with [] => Ok [] | _ => x <- subs_show v emb 0 l ;; Ok (below (str title) x) end = Ok h -> exists ts, shaped h (folder title ts) /\ subs_tell v R 0 l ts.
Proof.
  intros M F E. destruct l as [|c l]; [apply Ok_inj in E as <-; exists []; split; constructor|]. apply bind_ok in E as (x & Ex & E). apply Ok_inj in E as <-.
  destruct (subs_shaped v emb O R M _ _ _ F Ex) as (ts & S & T). exists ts. split; [|exact T]. inversion T; subst. now apply shaped_below.
Qed.
Lemma sig_shaped v (O : tag2 -> Prop) R s l : (forall e l, O e -> tag2_show v e = Ok l -> exists ts, shaped l ts /\ R e ts) -> sig_with O s -> tag2_show v s = Ok l -> exists ts, shaped l ts /\ sig_parts v R s ts.
Proof.
  intros H P E. assert (M : prints (fun e => t <- tag_title NEW NOT_PARTIAL 2 ;; l <- tag2_show v e ;; Ok (below t l)) O R).
  { intros e x Oe X. apply bind_ok in X as (k & Ek & X). apply bind_ok in X as (y & Ey & X). apply Ok_inj in X as <-. destruct (H e y Oe Ey) as (ts & S & T). exists k, ts. split; [now apply shaped_below|auto]. }
  clear H. destruct P; cbn [tag2_show sig_parts] in *.
  - change (3 <? 4) with true in E. change (3 =? 3) with true. cbv iota in E |- *. apply bind_ok in E as (h & Eh & E). apply bind_ok in Eh as (d & D & Eh). apply Ok_inj in Eh as <-.
    rewrite sig_numbers in E by assumption. cbn [bind] in E. apply Ok_inj in E as <-. eexists. split; [|exists d; split; [exact D|reflexivity]].
    apply (shaped_app [_] [_]); [apply (says_shaped [_])|]. apply (shaped_app _ [_]); [apply (shaped_below _ _ _ (says_shaped [_; _; _; _; _]))|]. unfold sig_tail. apply (says_shaped (_ :: _)).
  - change (4 <? 4) with false in E. change (4 =? 4) with true in E. change (4 =? 3) with false. cbv iota in E |- *. apply bind_ok in E as (h & Eh & E). cbv zeta in Eh. apply bind_ok in Eh as (a & Ea & Eh). apply bind_ok in Eh as (b & Eb & Eh). apply Ok_inj in Eh as <-.
    rewrite sig_numbers in E by assumption. cbn [bind] in E. apply Ok_inj in E as <-.
    destruct (folder_shaped v _ O R "Hashed Sub:" hashed a M ltac:(assumption) Ea) as (hs & Sh & Th). destruct (folder_shaped v _ O R "Unhashed Sub:" unhashed b M ltac:(assumption) Eb) as (us & Su & Tu).
    eexists. split; [|exists hs, us; split; [exact Th|]; split; [exact Tu|reflexivity]].
    rewrite <- !app_assoc. apply (shaped_app [_; _; _; _] (map leaf _)); [apply (says_shaped [_; _; _; _])|]. apply shaped_app; [exact Sh|]. apply shaped_app; [exact Su|]. unfold sig_tail. apply (says_shaped (_ :: _)).
Qed.
Lemma nested_shaped v depth : forall s l, nested depth s -> tag2_show v s = Ok l -> exists ts, shaped l ts /\ nested_parts v depth s ts.
Proof. induction depth as [|d IH]; intros s l P E; cbn [nested nested_parts] in *; (eapply sig_shaped; [|exact P|exact E]); [intros e x []|exact IH]. Qed.
Lemma contents_parts v inner p l : printable p -> contents_show v inner (p_tag p) (p_body p) = Ok l -> exists ts, shaped l ts /\ parts v (p_tag p) (p_body p) ts.
Proof.
  intros P E. destruct P; cbn [p_tag p_body contents_show parts] in *.
  - assert (D : exists d, date v (k_time k) = Ok d) by (unfold key_show in E; destruct (date v (k_time k)); [eauto|discriminate..]). destruct D as (d & D).
    rewrite (key_text v k d (full_whole k H0) D) in E. apply Ok_inj in E as <-. eexists. split; [apply says_shaped|eauto].
  - apply Ok_inj in E as <-. eexists. split; [apply (says_shaped [_])|reflexivity].
  - apply Ok_inj in E as <-. eexists. split; [apply (says_shaped [_])|reflexivity].
  - apply Ok_inj in E as <-. eexists. split; [apply (says_shaped [_])|reflexivity].
  - apply Ok_inj in E as <-. eexists. split; [apply (says_shaped [_])|reflexivity].
  - apply Ok_inj in E as <-. eexists. split; [apply (says_shaped [_; _])|reflexivity].
  - apply Ok_inj in E as <-. eexists. split; [apply (says_shaped [_; _; _; _; _; _])|reflexivity].
  - assert (N : (if pka <=? 3 then numbers ["RSA m**e mod n"%string] 0 mpi else if pka =? 16 then numbers ["ELGAMAL g**k mod p"; "ELGAMAL m * y**k mod p"]%string 0 mpi else Ok []) = numbers (session_names pka) 0 mpi).
    { unfold session_names. destruct H0 as [[P _]|[-> _]]; [now replace (pka <=? 3) with true by lia|reflexivity]. }
    rewrite N in E. pose proof (numbers_all _ [] mpi (session_fits pka mpi H0)) as NA. cbn [length app] in NA. rewrite NA in E. cbn [bind] in E. apply Ok_inj in E as <-.
    eexists. split; [|reflexivity]. rewrite map_app. eapply shaped_app; [apply (says_shaped [_; _; _])|]. rewrite map_map. pose proof (says_shaped (map (fun x => with_bits (fst x) (snd x)) (combine (session_names pka) mpi))) as X. rewrite !map_map in X. exact X.
  - destruct (date v time) as [d| | |] eqn:D; try discriminate. cbn [bind] in E. apply Ok_inj in E as <-. eexists. split; [|eauto]. constructor. apply (shaped_below _ _ _ (says_shaped [_; _; _])).
  - apply bind_ok in E as (x & Ex & E). apply Ok_inj in E as <-. eexists. split; [|reflexivity]. eapply shaped_app; [apply (says_shaped [_; _])|].
    change (s2k_tree s :: ?r) with ([s2k_tree s] ++ r). eapply shaped_app; [now apply s2k_shaped|]. destruct esk; [apply (says_shaped [_])|constructor].
  - apply bind_ok in E as (x & Ex & E). apply bind_ok in E as (y & Ey & E). apply Ok_inj in E as <-. destruct (key_says v k H0 x Ex) as (d0 & D & ->).
    eexists. split; [|exists d0; eexists; split; [exact D|]; split; [reflexivity|reflexivity]]. eapply shaped_app; [apply says_shaped|].
    unfold secret_show in Ey. cbn [sk_con sk_sym sk_s2k sk_iv sk_secret] in *. assert (C : 253 <? con = true /\ con =? 0 = false) by (cbn in H1; lia). destruct C as [C1 C2]. rewrite C1, C2 in Ey. cbn [negb] in Ey.
    apply bind_ok in Ey as (h & Eh & Ey). apply bind_ok in Eh as (z & Ez & Eh). replace (s2k_type s =? 0) with false in Eh by lia. apply Ok_inj in Eh as <-. apply Ok_inj in Ey as <-.
    rewrite <- !app_assoc. apply (shaped_app [_; _] [_; _]); [apply (says_shaped [_; _])|]. apply (shaped_app _ [_]); [now apply s2k_shaped|]. apply (shaped_app [_] [_]); [apply (says_shaped [_])|].
    unfold lock_name. rewrite <- !app_assoc. apply (shaped_below _ [_] [_]). apply (says_shaped [_]).
  - apply bind_ok in E as (x & Ex & E). apply bind_ok in E as (y & Ey & E). apply Ok_inj in E as <-. destruct (key_says v k H0 x Ex) as (d0 & D & ->).
    pose proof (secret_fits _ _ H1) as LN. pose proof (secret_read (secret_names (k_pka k)) l0 [] c LN H2) as SR. cbn [app] in SR. rewrite len_nil in SR.
    unfold secret_show in Ey. cbn [sk_con sk_sym sk_s2k sk_iv sk_secret] in Ey. change (253 <? 0) with false in Ey. change (negb (0 =? 0)) with false in Ey. cbv iota in Ey. cbn [bind] in Ey.
    assert (N : (if is_RSA (k_pka k) then secret_numbers ["RSA d"; "RSA p"; "RSA q"; "RSA u"]%string (concat (map write_MPI l0) ++ c) 0
                     else if k_pka k =? 16 then secret_numbers ["ELGAMAL x"%string] (concat (map write_MPI l0) ++ c) 0
                     else if k_pka k =? 17 then secret_numbers ["DSA x"%string] (concat (map write_MPI l0) ++ c) 0 else Ok ([Say (str "Unknown")], 0)) = secret_numbers (secret_names (k_pka k)) (concat (map write_MPI l0) ++ c) 0).
    { destruct H1 as [[I1 _]|[I1 _]]; cbn in I1; decompose [or] I1; try contradiction; match goal with H : _ = k_pka k |- _ => rewrite <- H end; reflexivity. }
    rewrite N, SR in Ey. cbn [bind] in Ey. rewrite N.add_0_l in Ey. rewrite (substr_app_end _ c) in Ey by (rewrite ?H4; lia). cbn [bind app] in Ey. apply Ok_inj in Ey as <-.
    eexists. split; [|exists d0; eexists; split; [exact D|]; split; [cbn [secret_parts sk_s2k sk_secret]; exists l0, c; repeat split; try assumption; reflexivity|reflexivity]].
    eapply shaped_app; [apply says_shaped|]. rewrite map_app. eapply shaped_app; [apply says_shaped|apply (says_shaped [_])].
  - destruct H as (d & N). destruct (nested_shaped v d s l N E) as (ts & S & A). exists ts. split; [exact S|]. exists d. auto.
Qed.
Lemma counted_same label k m a b : str label ++ Times.decimal k ++ str " octets): " ++ a = str label ++ Times.decimal m ++ str " octets): " ++ b -> a = b.
Proof.
  intros E. apply app_inv_head in E. change (str " octets): ") with (32 :: str "octets): ") in E. cbn [app] in E. apply cut in E as [_ E]; [|apply decimal_plain..]. now apply app_inv_head in E.
Qed.
Lemma leaf_same a b : leaf a = leaf b -> a = b.
Proof. intros E. now injection E. Qed.
Lemma leaves_same : forall l m, map leaf l = map leaf m -> l = m.
Proof. induction l as [|a l IH]; intros [|b m] E; try discriminate; [reflexivity|]. cbn [map] in E. injection E as Ea El. subst. f_equal. auto. Qed.
Lemma keys_same v k m d d' : is_gmtime (v_gmtime v) -> full_key k -> full_key m -> date v (k_time k) = Ok d -> date v (k_time m) = Ok d' -> key_lines k d = key_lines m d' -> k = m.
Proof.
  intros G W X D D' ET. pose proof (whole_names _ W) as LW. pose proof (whole_names _ X) as LX. pose proof (whole_pka _ W) as KW. pose proof (whole_pka _ X) as KX.
  destruct W as (V1 & T1 & X1 & _). destruct X as (V2 & T2 & X2 & _). unfold key_lines in ET. cbn [app] in ET. injection ET as ED EP EM. subst d'. pose proof (C84_unique _ _ _ _ G T1 T2 D D') as ET.
  apply named_same in EP. rewrite EP in *. apply mpis_same in EM; [|exact LW|exact LX]. destruct k, m; cbn in *. congruence.
Qed.
Lemma format_same a b : In a [98; 116; 117] -> In b [98; 116; 117] -> mapped literal_name a = mapped literal_name b -> a = b.
Proof. intros A B. cbn in A, B. decompose [or] A; decompose [or] B; subst; try contradiction; try reflexivity; vm_compute; discriminate. Qed.
Lemma heads_same {A} : forall (a b c d : list A), length a = length b -> a ++ c = b ++ d -> a = b /\ c = d.
Proof. induction a as [|x a IH]; intros [|y b] c d L E; try discriminate; [auto|]. cbn in E, L. injection E as -> E. destruct (IH b c d ltac:(lia) E) as [-> ->]. auto. Qed.
Lemma key_split k m d d' st st' : full_key k -> full_key m -> map leaf (key_lines k d) ++ st = map leaf (key_lines m d') ++ st' -> k_pka k = k_pka m /\ key_lines k d = key_lines m d' /\ st = st'.
Proof.
  intros W X E. pose proof (whole_names _ W) as LW. pose proof (whole_names _ X) as LX. assert (EP := f_equal (fun l => nth 2 l (leaf [])) E). unfold key_lines in EP. cbn [app map nth] in EP. apply leaf_same in EP.
  apply app_inv_head, named_same in EP. split; [exact EP|]. apply heads_same in E as [E ->].
  - split; [now apply leaves_same|reflexivity].
  - unfold key_lines. rewrite !map_length, !app_length, !map_length, !combine_length, LW, LX, EP. reflexivity.
Qed.
Lemma s2k_same s t : plain_s2k s -> plain_s2k t -> s2k_tree s = s2k_tree t -> s = t.
Proof.
  intros P Q E. apply (f_equal (fun x => match x with Tree _ l => l end)) in E. cbn [s2k_tree] in E. apply leaves_same in E.
  destruct P; destruct Q; unfold s2k_lines in E; cbn [s2k_kind s2k_hash s2k_salt s2k_count app] in E; try (apply (f_equal (@length bytes)) in E; discriminate);
    assert (E1 := f_equal (fun l => nth 0 l []) E); cbn [nth] in E1; apply app_inv_head, named_same in E1; subst; try reflexivity;
    assert (E2 := f_equal (fun l => nth 1 l []) E); cbn [nth] in E2; apply app_inv_head in E2; (apply hex_same in E2; [|assumption..]); subst; try reflexivity.
  assert (E3 := f_equal (fun l => nth 2 l []) E). cbn [nth] in E3. clear E. rewrite !app_assoc in E3. apply app_inv_tail in E3. change (str " (count ") with ((str " (count") ++ [32]) in E3.
  rewrite <- !app_assoc in E3. cbn [app] in E3. rewrite !(app_assoc (str "Coded Count: ")) in E3.
  change (32 :: 40 :: 99 :: 111 :: 117 :: 110 :: 116 :: 32 :: ?r) with (str " (count" ++ 32 :: r) in E3. rewrite !(app_assoc _ (str " (count")) in E3. apply cut_back in E3 as [_ E3]; [|apply decimal_plain..].
  apply decimal_same in E3. now subst.
Qed.
Lemma secret_line_same n a b : secret_line n a = secret_line n b -> a = b.
Proof.
  unfold secret_line, mpitohex. intros E. apply app_inv_head, app_inv_head in E. change (str ") bits: ") with ([41] ++ 32 :: str "bits: ") in E. rewrite !app_assoc in E. rewrite <- !(app_assoc _ [41]) in E.
  assert (P : forall k, ~ In 32 (Times.decimal k ++ [41])) by (intros k I; apply in_app_or in I as [I|[I|[]]]; [exact (proj2 (decimal_plain k) I)|discriminate]).
  rewrite !app_assoc in E. rewrite <- !(app_assoc _ (32 :: _)) in E. cbn [app] in E. apply cut in E as [_ E]; [|apply P..]. apply app_inv_head in E.
  apply hex_same in E; [|apply mpitoraw_octets..]. rewrite <- (mpitoraw_val a), <- (mpitoraw_val b). now f_equal.
Qed.
Lemma secret_lines_same names : forall l l', length l = length names -> length l' = length names ->
  map (fun x => secret_line (fst x) (snd x)) (combine names l) = map (fun x => secret_line (fst x) (snd x)) (combine names l') -> l = l'.
Proof.
  induction names as [|m names IH]; intros [|a l] [|b l'] L L' E; try discriminate; [reflexivity|]. cbn [combine map fst snd] in E. injection E as E1 E2.
  apply secret_line_same in E1 as ->. f_equal. apply IH; auto.
Qed.
(** The numbers of an open secret key do not begin like the lines of a locked one. *)
Lemma open_other pka l c r x ts : length l = length (secret_names pka) ->
  map leaf (map (fun y => secret_line (fst y) (snd y)) (combine (secret_names pka) l) ++ [c]) <> leaf (str "String-to-Key Usage Conventions: " ++ r) :: x :: ts.
Proof.
  intros L E. apply (f_equal (fun t => match t with Tree h _ :: _ => h | [] => [] end)) in E. unfold secret_names in *.
  destruct (is_RSA pka); [|destruct (pka =? 16)]; (destruct l as [|a l]; [discriminate|]); cbn in E; discriminate.
Qed.
Definition starts (a b : bytes) : bool := beq a (firstn (length a) b).
Lemma one_starts : forall a b x y, a ++ x = b ++ y -> starts a b || starts b a = true.
Proof.
  induction a as [|c a IH]; intros b x y E; [reflexivity|]. destruct b as [|d b]; [apply Bool.orb_true_r|]. cbn [app] in E. injection E as -> E. specialize (IH b x y E).
  unfold starts in *. cbn [length firstn beq]. rewrite N.eqb_refl. exact IH.
Qed.
Definition sub_types : list N := [2; 3; 4; 5; 6; 7; 9; 10; 11; 12; 16; 20; 21; 22; 23; 24; 25; 26; 27; 28; 29; 30; 31; 32].
Definition sub_head (x : bool * N) : bytes := (if fst x then str "Critical: " else []) ++ mapped sub_name (snd x) ++ str " Subpacket (sub " ++ Times.decimal (snd x) ++ str ") (".
Definition sub_heads : list (bool * N) := list_prod [false; true] sub_types.
Lemma heads_checked : forallb (fun x => forallb (fun y => negb (starts (sub_head x) (sub_head y)) || (Bool.eqb (fst x) (fst y) && (snd x =? snd y))) sub_heads) sub_heads = true.
Proof. vm_compute. reflexivity. Qed.
Lemma printable_type s : printable_sub s -> In (sub_type s) sub_types.
Proof. intros P. destruct P; cbn; tauto. Qed.
Lemma with_type O s : sub_with O s -> In (sub_type s) sub_types.
Proof. intros [P|(e & -> & _)]; [now apply printable_type|cbn; tauto]. Qed.
Lemma sub_titled v c h : In (sub_type (snd c)) sub_types -> sub_title v c = Ok h -> h = sub_head (fst c, sub_type (snd c)) ++ Times.decimal (v_size v c) ++ str " octets)".
Proof.
  intros P E. unfold sub_title in E. apply bind_ok in E as (n & En & E). apply Ok_inj in E as <-. unfold sub_head. cbn [fst snd].
  assert (n = mapped sub_name (sub_type (snd c))) as -> by (revert En P; generalize (sub_type (snd c)); intros k En P; cbn in P; decompose [or] P; try contradiction; subst k; vm_compute in En; apply Ok_inj in En as <-; reflexivity). rewrite <- !app_assoc. reflexivity.
Qed.
Lemma sub_titles_same v c c' h : In (sub_type (snd c)) sub_types -> In (sub_type (snd c')) sub_types -> sub_title v c = Ok h -> sub_title v c' = Ok h -> fst c = fst c' /\ sub_type (snd c) = sub_type (snd c').
Proof.
  intros P P' E E'. apply sub_titled in E; [|exact P]. apply sub_titled in E'; [|exact P']. rewrite E in E'. apply one_starts in E'.
  assert (I : forall d : bool * sub tag2, In (sub_type (snd d)) sub_types -> In (fst d, sub_type (snd d)) sub_heads) by (intros d D; apply in_prod; [destruct (fst d); cbn; tauto|exact D]).
  pose proof heads_checked as C. rewrite forallb_forall in C.
  apply Bool.orb_prop in E' as [S|S]; [pose proof (C _ (I c P)) as C1; cbv beta in C1; rewrite forallb_forall in C1; specialize (C1 _ (I c' P'))
                                      |pose proof (C _ (I c' P')) as C1; cbv beta in C1; rewrite forallb_forall in C1; specialize (C1 _ (I c P))]; cbv beta in C1; rewrite S in C1; cbn [negb orb fst snd] in C1;
    apply andb_prop in C1 as [C1 C2]; apply Bool.eqb_prop in C1; apply N.eqb_eq in C2; auto.
Qed.
Lemma octet_line_same label t kind a b : a < 256 -> b < 256 -> octet_line label t kind a = octet_line label t kind b -> a = b.
Proof.
  intros A B E. unfold octet_line in E. apply app_inv_head in E. rewrite !app_assoc in E. apply app_inv_tail in E. change (str " ") with [32] in E. rewrite <- !(app_assoc _ [32]) in E. cbn [app] in E.
  assert (P : forall z, ~ In 32 (decimal_z z)) by (intros z I; unfold decimal_z in I; destruct (z <? 0)%Z; [destruct I as [I|I]; [discriminate|]|]; exact (proj2 (decimal_plain _) I)).
  apply cut_back in E as [_ E]; [|apply P..]. unfold decimal_z, signed_char in E.
  assert (D : forall k m, Times.decimal k <> 45 :: m) by (intros k m X; pose proof (decimal_digits k) as Y; rewrite X in Y; inversion Y as [|? ? Z _]; lia).
  destruct (a <? 128) eqn:LA; destruct (b <? 128) eqn:LB.
  - replace (Z.of_N a <? 0)%Z with false in E by lia. replace (Z.of_N b <? 0)%Z with false in E by lia. apply decimal_same in E. lia.
  - replace (Z.of_N a <? 0)%Z with false in E by lia. replace (Z.of_N b - 256 <? 0)%Z with true in E by lia. now apply D in E.
  - replace (Z.of_N b <? 0)%Z with false in E by lia. replace (Z.of_N a - 256 <? 0)%Z with true in E by lia. symmetry in E. now apply D in E.
  - replace (Z.of_N b - 256 <? 0)%Z with true in E by lia. replace (Z.of_N a - 256 <? 0)%Z with true in E by lia. injection E as E. apply decimal_same in E. lia.
Qed.
Lemma octet_lines_same label t kind : forall l m, octets l -> octets m -> map (octet_line label t kind) l = map (octet_line label t kind) m -> l = m.
Proof.
  induction l as [|a l IH]; intros [|b m] L M E; try discriminate; [reflexivity|]. apply octets_cons in L as [A L]. apply octets_cons in M as [B M]. cbn [map] in E.
  assert (E1 := f_equal (hd []) E). assert (E2 := f_equal (@tl bytes) E). cbn [hd tl] in E1, E2. apply octet_line_same in E1; [|assumption..]. subst. f_equal. now apply IH.
Qed.
Lemma truth_same a b : truth a = truth b -> a = b.
Proof. destruct a, b; try reflexivity; discriminate. Qed.
Lemma reason_same a b r s : str "Reason " ++ Times.decimal a ++ str " - " ++ r = str "Reason " ++ Times.decimal b ++ str " - " ++ s -> a = b.
Proof.
  intros E. apply app_inv_head in E. change (str " - ") with (32 :: str "- ") in E. cbn [app] in E. apply cut in E as [E _]; [|apply decimal_plain..]. now apply decimal_same.
Qed.
Lemma date_ever v t : is_gmtime (v_gmtime v) -> t < 2 ^ 32 -> date v t <> Ok (str "Never").
Proof.
  intros G L E. destruct (C84_time _ t G L) as (g & y & wd & mo & dd & hh & mm & ss & yy & _ & _ & F & W & _).
  unfold date in E. rewrite F in E. apply Ok_inj in E. apply nth_error_In in W. cbn in W. decompose [or] W; try contradiction; subst wd; discriminate.
Qed.
Definition flags_read (t : list (N * bytes)) (text : N -> bytes) (ls : list bytes) : N :=
  fold_right (fun b s => (if existsb (beq (bit_line t text b)) ls then 2 ^ b else 0) + s) 0 [0; 1; 2; 3; 4; 5; 6; 7].
Definition flags_told (t : list (N * bytes)) (text : N -> bytes) : bool := forallb (fun k => let x := N.of_nat k in flags_read t text (bit_text t text [x]) =? x) (seq 0 256).
Lemma flags_checked : flags_told ksp_name hex_of_mask && flags_told key_flag_name hex_of_mask && flags_told feature_name feature_mask = true.
Proof. vm_compute. reflexivity. Qed.
Lemma flags_same t text x y : flags_told t text = true -> x < 256 -> y < 256 -> bit_text t text [x] = bit_text t text [y] -> x = y.
Proof.
  intros T X Y E. unfold flags_told in T. rewrite forallb_forall in T. assert (R : forall z, z < 256 -> flags_read t text (bit_text t text [z]) = z).
  { intros z Z. specialize (T (N.to_nat z)). cbv zeta beta in T. rewrite N2Nat.id in T. apply N.eqb_eq, T, in_seq. lia. }
  rewrite <- (R x X), <- (R y Y), E. reflexivity.
Qed.
Ltac line_of B n := let E := fresh "E" in assert (E := f_equal (fun l => nth n l []) B); cbn [nth] in E; first [apply reason_same in E | apply app_inv_head in E].
Lemma sub_texts_same v created s t ls : is_gmtime (v_gmtime v) -> printable_sub s -> printable_sub t -> sub_type s = sub_type t -> sub_text v created s ls -> sub_text v created t ls -> s = t.
Proof.
  intros G P Q T A B. destruct P; destruct Q; try discriminate; cbn [sub_text] in A, B; clear T.
  - destruct A as (d & D & ->). destruct B as (d' & D' & B). line_of B 0%nat. subst d'. f_equal. eapply C84_unique; eassumption.
  - subst ls. line_of B 0%nat. apply truth_same in E. now subst.
  - subst ls. line_of B 0%nat. line_of B 1%nat. apply decimal_same in E, E0. now subst.
  - subst ls. line_of B 0%nat. apply truth_same in E. now subst.
  - subst ls. apply octet_lines_same in B; [|assumption..]. now subst.
  - subst ls. line_of B 0%nat. apply hex_same in E; [|assumption..]. now subst.
  - subst ls. apply octet_lines_same in B; [|assumption..]. now subst.
  - subst ls. apply octet_lines_same in B; [|assumption..]. now subst.
  - subst ls. line_of B 0%nat. now subst.
  - subst ls. line_of B 0%nat. apply truth_same in E. now subst.
  - subst ls. line_of B 0%nat. now subst.
  - subst ls. line_of B 0%nat. now subst.
  - subst ls. line_of B 0%nat. line_of B 1%nat. now subst.
  - subst ls. line_of B 0%nat. line_of B 1%nat. line_of B 2%nat. apply named_same in E, E0. apply hex_same in E1; [|assumption..]. now subst.
  - destruct A as (d & D & ->). destruct B as (d' & D' & B). line_of B 0%nat. subst d'. f_equal. destruct (t0 =? 0) eqn:Z; destruct (t =? 0) eqn:Z0; [lia| | |eapply C84_unique; eassumption].
    + apply Ok_inj in D as <-. exfalso. eapply date_ever; [exact G| |exact D']. assumption.
    + apply Ok_inj in D' as <-. exfalso. eapply date_ever; [exact G| |exact D]. assumption.
  - subst ls. line_of B 0%nat. now subst.
  - subst ls. injection B as B. now subst.
  - subst ls. line_of B 0%nat. line_of B 1%nat. line_of B 2%nat. apply decimal_same in E. apply named_same in E0. now subst.
  - subst ls. change [str "Name: " ++ m; str "Value: " ++ n] with ([str "Name: " ++ m] ++ [str "Value: " ++ n]) in B. change [str "Name: " ++ m0; str "Value: " ++ n0] with ([str "Name: " ++ m0] ++ [str "Value: " ++ n0]) in B.
    rewrite !app_assoc in B. apply app_inj_tail in B as [B B2]. apply app_inj_tail in B as [B B1]. apply app_inv_head in B1, B2. apply octet_lines_same in B; [|assumption..]. now subst.
  - subst ls. pose proof flags_checked as C. apply andb_prop in C as [C C3]. apply andb_prop in C as [C1 C2]. apply flags_same in B; [|assumption..]. now subst.
  - subst ls. pose proof flags_checked as C. apply andb_prop in C as [C C3]. apply andb_prop in C as [C1 C2]. apply flags_same in B; [|assumption..]. now subst.
  - subst ls. pose proof flags_checked as C. apply andb_prop in C as [C C3]. apply andb_prop in C as [C1 C2]. apply flags_same in B; [|assumption..]. now subst.
  - destruct A as (d & D & ->). destruct B as (d' & D' & B). line_of B 0%nat. subst d'. f_equal. assert (U : forall x, u32 x < 2 ^ 32) by (intros x; apply N.mod_lt; discriminate). destruct (t0 =? 0) eqn:Z; destruct (t =? 0) eqn:Z0; [lia| | |].
    + apply Ok_inj in D as <-. exfalso. eapply date_ever; [exact G| |exact D']. apply U.
    + apply Ok_inj in D' as <-. exfalso. eapply date_ever; [exact G| |exact D]. apply U.
    + pose proof (C84_unique _ _ _ _ G (U _) (U _) D D') as E. unfold u32 in E. assert (M : 2 ^ 32 <> 0) by discriminate.
      pose proof (N.div_mod (created + t0) (2 ^ 32) M) as X. pose proof (N.div_mod (created + t) (2 ^ 32) M) as Y. clear U D D'. change (2 ^ 32) with 4294967296 in *. change two32 with 4294967296 in E.
      rewrite E in X. set (q := (created + t0) / 4294967296) in *. set (q' := (created + t) / 4294967296) in *. set (r := (created + t) mod 4294967296) in *. clearbody q q' r. lia.
Qed.
Definition told_apart (O : tag2 -> Prop) (R : tag2 -> list tree -> Prop) : Prop := forall e f ts, O e -> O f -> R e ts -> R f ts -> e = f.
Lemma plain_other s (e : option tag2) : printable_sub s -> sub_type s = sub_type (Sub32 e) -> False.
Proof. intros P E. destruct P; discriminate. Qed.
Lemma subs_same v O R : is_gmtime (v_gmtime v) -> told_apart O R -> forall l m created ts, Forall (fun c => sub_with O (snd c)) l -> Forall (fun c => sub_with O (snd c)) m -> subs_tell v R created l ts -> subs_tell v R created m ts -> l = m.
Proof.
  intros G M. induction l as [|c l IH]; intros m created ts F H A B; inversion A as [|? c' t l' ts' Tc A']; subst; inversion B as [|? d t' m' ts'' Td B']; subst; [reflexivity|].
  inversion F as [|? ? P F']; subst. inversion H as [|? ? Q H']; subst. destruct t as [h us]. destruct Tc as (Hc & Tc). destruct Td as (Hd & Td).
  destruct (sub_titles_same v c d h (with_type O _ P) (with_type O _ Q) Hc Hd) as [E1 E2]. assert (E3 : snd c = snd d).
  { clear IH A B A' B' F H. destruct c as [bc sc], d as [bd sd]. unfold now in *. cbn [fst snd] in *. destruct P as [P|(e & -> & Oe)]; destruct Q as [Q|(f & -> & Of)].
    - destruct Tc as [(ls & Sc & Uc)|(? & ? & ? & X & _)]; [|subst sc; inversion P]. destruct Td as [(ls' & Sd & Ud)|(? & ? & ? & X & _)]; [|subst sd; inversion Q]. subst us. apply leaves_same in Ud. subst ls'.
      apply (sub_texts_same v created sc sd ls G P Q E2); [destruct P; exact Sc|destruct Q; exact Sd].
    - destruct (plain_other _ _ P E2).
    - destruct (plain_other _ _ Q (eq_sym E2)).
    - destruct Tc as [(? & [] & _)|(e' & k & us1 & X & U & _ & Re)]. injection X as <-. destruct Td as [(? & [] & _)|(f' & k' & us2 & X & U' & _ & Rf)]. injection X as <-. subst us. injection U' as _ <-. do 2 f_equal. exact (M _ _ _ Oe Of Re Rf). }
  assert (E4 : c = d) by (destruct c, d; cbn in *; congruence). subst d. f_equal. exact (IH m' _ ts' F' H' A' B').
Qed.
Lemma type_same a b : a < 256 -> b < 256 -> type_text a = type_text b -> a = b.
Proof.
  intros A B E. unfold type_text in E. apply app_inv_head in E. rewrite !app_assoc in E. apply app_inv_tail in E. change (str " (type 0x") with (str " (type 0" ++ [120]) in E. rewrite !app_assoc in E. rewrite <- !(app_assoc _ [120]) in E. cbn [app] in E.
  assert (H : forall c, c < 256 -> makehex c 2 = hexlify [c]) by (intros c C; unfold hexlify, hexlify_c; cbn [flat_map]; rewrite app_nil_r; unfold hexlify_char, u8; rewrite N.mod_small by exact C; reflexivity).
  rewrite (H a A), (H b B) in E. assert (X : forall d, ~ In 120 (hexlify d)).
  { intros d I. unfold hexlify, hexlify_c in I. apply in_flat_map in I as (c & _ & I). unfold hexlify_char in I. cbn [makehex_c app In] in I. assert (Y : forall k, k < 16 -> hexdigit false k <> 120) by (intros k K; unfold hexdigit; destruct (_ <? 10); lia).
    destruct I as [I|[I|[]]]; revert I; apply Y; apply N.mod_lt; discriminate. }
  apply cut_back in E as [_ E]; [|apply X..]. apply hex_same in E; [congruence|apply octets_cons; split; [assumption|constructor]..].
Qed.
Lemma folders_same a a' b b' l l' n n' : folder "Hashed Sub:" a ++ folder "Unhashed Sub:" b ++ leaf (str "Hash Left 16 Bits: " ++ l) :: n = folder "Hashed Sub:" a' ++ folder "Unhashed Sub:" b' ++ leaf (str "Hash Left 16 Bits: " ++ l') :: n' ->
  a = a' /\ b = b' /\ l = l' /\ n = n'.
Proof.
  assert (L : leaf (str "Hash Left 16 Bits: " ++ l) = leaf (str "Hash Left 16 Bits: " ++ l') -> l = l') by (intros E; apply leaf_same, app_inv_head in E; exact E).
  destruct a as [|x a]; destruct a' as [|x' a']; destruct b as [|y b]; destruct b' as [|y' b']; cbn [folder app]; intros E; try discriminate;
    (split; [congruence|]; split; [congruence|]).
  - split; [apply L; congruence|congruence].
  - split; [apply L; congruence|congruence].
  - split; [apply L; congruence|congruence].
  - split; [apply L; congruence|congruence].
Qed.
Lemma tails_same l l' p m m' : octets l -> octets l' -> sig_count p m -> sig_count p m' -> sig_tail l p m = sig_tail l' p m' -> l = l' /\ m = m'.
Proof.
  intros O O' C C' E. unfold sig_tail in E. assert (E1 := f_equal (hd (leaf [])) E). assert (E2 := f_equal (@tl tree) E). cbn [hd tl] in E1, E2. apply leaf_same, app_inv_head in E1. apply hex_same in E1; [|assumption..].
  apply leaves_same in E2. apply mpis_same in E2; [auto|now apply sig_fits..].
Qed.
Lemma sigs_same v O R s t ts : is_gmtime (v_gmtime v) -> told_apart O R -> sig_with O s -> sig_with O t -> sig_parts v R s ts -> sig_parts v R t ts -> s = t.
Proof.
  intros G M P Q A B. destruct P; destruct Q; cbn [sig_parts] in A, B; change (3 =? 3) with true in *; change (4 =? 3) with false in *; cbv iota in A, B.
  - destruct A as (d & D & ->). destruct B as (d' & D' & B). assert (E1 := f_equal (fun l => match nth 1 l (leaf []) with Tree _ us => us end) B). assert (E2 := f_equal (skipn 2) B). cbn [nth skipn] in E1, E2. clear B.
    apply leaves_same in E1. assert (F1 := f_equal (fun l => nth 0 l []) E1). assert (F2 := f_equal (fun l => nth 1 l []) E1). assert (F3 := f_equal (fun l => nth 2 l []) E1). assert (F4 := f_equal (fun l => nth 3 l []) E1). assert (F5 := f_equal (fun l => nth 4 l []) E1).
    cbn [nth] in F1, F2, F3, F4, F5. clear E1. apply type_same in F1; [|assumption..]. apply app_inv_head in F2, F3, F4, F5. apply hex_same in F3; [|assumption..]. apply named_same in F4, F5. subst d' pka0.
    match goal with L : time < _, L' : time0 < _ |- _ => pose proof (C84_unique _ _ _ _ G L L' D D') as E0 end. apply tails_same in E2 as [E3 E4]; [|assumption..]. now subst.
  - exfalso. destruct A as (d & D & ->). destruct B as (hs & us & _ & _ & B). apply (f_equal (hd (leaf []))) in B. discriminate.
  - exfalso. destruct B as (d & D & B). destruct A as (hs & us & _ & _ & A). rewrite B in A. apply (f_equal (hd (leaf []))) in A. discriminate.
  - destruct A as (hs & us & Ah & Au & ->). destruct B as (hs' & us' & Bh & Bu & B). assert (F1 := f_equal (fun l => nth 1 l (leaf [])) B). assert (F2 := f_equal (fun l => nth 2 l (leaf [])) B). assert (F3 := f_equal (fun l => nth 3 l (leaf [])) B). assert (F4 := f_equal (skipn 4) B).
    cbn [map app nth skipn] in F1, F2, F3, F4. clear B. apply leaf_same in F1, F2, F3. apply type_same in F1; [|assumption..]. apply app_inv_head in F2, F3. apply named_same in F2, F3. subst pka0. unfold sig_tail in F4.
    apply folders_same in F4 as (E1 & E2 & E3 & E4). subst hs' us'. apply hex_same in E3; [|assumption..]. apply leaves_same in E4. apply mpis_same in E4; [|now apply sig_fits..].
    pose proof (subs_same v O R G M hashed hashed0 0 hs ltac:(assumption) ltac:(assumption) Ah Bh) as ->. pose proof (subs_same v O R G M unhashed unhashed0 0 us ltac:(assumption) ltac:(assumption) Au Bu) as ->. now subst.
Qed.
Lemma nested_same v depth : is_gmtime (v_gmtime v) -> told_apart (nested depth) (nested_parts v depth).
Proof. intros G. induction depth as [|d IH]; intros e f ts P Q A B; cbn [nested nested_parts] in *; (eapply sigs_same; [exact G| |exact P|exact Q|exact A|exact B]); [intros ? ? ? []|exact IH]. Qed.
Lemma with_more (O O' : tag2 -> Prop) s : (forall e, O e -> O' e) -> sig_with O s -> sig_with O' s.
Proof.
  intros M P. assert (F : forall l : list (bool * sub tag2), Forall (fun c => sub_with O (snd c)) l -> Forall (fun c => sub_with O' (snd c)) l) by (intros l; apply Forall_impl; intros c [X|(e & X & Y)]; [now left|right; eauto]).
  destruct P; constructor; auto.
Qed.
Lemma tell_more_subs v (R R' : tag2 -> list tree -> Prop) created l ts : (forall e u, R e u -> R' e u) -> subs_tell v R created l ts -> subs_tell v R' created l ts.
Proof.
  intros M T. induction T as [|created c t l ts Tc T IH]; constructor; [|exact IH]. destruct t as [h us]. destruct Tc as (H & [X|(e & k & u & X & Y & Z & W)]); (split; [exact H|]); [now left|right; exists e, k, u; auto].
Qed.
Lemma parts_more v (R R' : tag2 -> list tree -> Prop) s ts : (forall e u, R e u -> R' e u) -> sig_parts v R s ts -> sig_parts v R' s ts.
Proof.
  intros M A. destruct s. cbn [sig_parts] in *. destruct (_ =? 3); [exact A|]. destruct A as (hs & us & A & B & E). exists hs, us. split; [eapply tell_more_subs; eassumption|]. split; [eapply tell_more_subs; eassumption|exact E].
Qed.
Lemma nested_deeper v depth : (forall s, nested depth s -> nested (S depth) s) /\ forall s ts, nested_parts v depth s ts -> nested_parts v (S depth) s ts.
Proof.
  induction depth as [|d [IH1 IH2]]; split.
  - intros s. apply with_more. intros e [].
  - intros s ts. apply parts_more. intros e u [].
  - intros s. apply with_more, IH1.
  - intros s ts. apply parts_more, IH2.
Qed.
Lemma nested_most v d k s ts : nested d s -> nested_parts v d s ts -> nested (k + d) s /\ nested_parts v (k + d) s ts.
Proof. intros P A. induction k as [|k [IH1 IH2]]; [auto|]. destruct (nested_deeper v (k + d)) as [X Y]. split; [exact (X _ IH1)|exact (Y _ _ IH2)]. Qed.
Lemma parts_same v p q ts : is_gmtime (v_gmtime v) -> printable p -> printable q -> p_tag p = p_tag q -> parts v (p_tag p) (p_body p) ts -> parts v (p_tag q) (p_body q) ts -> p_body p = p_body q.
Proof.
  intros G P Q T A B. destruct P; destruct Q; cbn [p_tag p_body parts] in *;
    try (exfalso; clear A B G; subst; repeat match goal with H : In _ _ |- _ => cbn in H end; intuition (discriminate || congruence)).
  - destruct A as (d & D & ->). destruct B as (d' & D' & B). apply leaves_same in B. f_equal. eapply keys_same; eassumption.
  - subst ts. apply (f_equal (hd (leaf []))) in B. apply leaf_same in B. cbn [raw_line] in B. apply counted_same in B. f_equal. now apply hex_same.
  - subst ts tag0. apply (f_equal (hd (leaf []))) in B. apply leaf_same in B. f_equal. apply hex_same; [assumption..|]. cbn in H. decompose [or] H; try contradiction; subst tag; exact B.
  - subst ts tag0. apply (f_equal (hd (leaf []))) in B. apply leaf_same in B. f_equal. cbn in H. decompose [or] H; try contradiction; subst tag; cbn [raw_line] in B;
      [now apply counted_same in B|now apply app_inv_head in B|now apply app_inv_head in B].
  - subst ts. apply (f_equal (hd (leaf []))) in B. apply leaf_same in B. cbn [raw_line] in B. now f_equal.
  - subst ts. apply leaves_same in B. assert (E1 := f_equal (hd []) B). assert (E2 := f_equal (fun l => hd [] (tl l)) B). cbn [hd tl] in E1, E2.
    apply app_inv_head in E1. apply decimal_same in E1. apply counted_same in E2. f_equal; [exact E1|now apply hex_same].
  - subst ts. apply leaves_same in B. assert (E1 := f_equal (fun l => nth 0 l []) B). assert (E2 := f_equal (fun l => nth 1 l []) B). assert (E3 := f_equal (fun l => nth 2 l []) B).
    assert (E4 := f_equal (fun l => nth 3 l []) B). assert (E5 := f_equal (fun l => nth 4 l []) B). assert (E6 := f_equal (fun l => nth 5 l []) B). cbn [nth] in E1, E2, E3, E4, E5, E6. clear B.
    apply app_inv_head in E1, E2, E3, E4, E5, E6. apply decimal_same in E1, E6. apply named_same in E2, E3, E4. apply hex_same in E5; [|assumption..]. subst. reflexivity.
  - subst ts. apply leaves_same in B. assert (E1 := f_equal (fun l => nth 0 l []) B). assert (E2 := f_equal (fun l => nth 1 l []) B). assert (E3 := f_equal (fun l => nth 2 l []) B).
    assert (E4 := f_equal (skipn 3) B). cbn [nth app skipn] in E1, E2, E3, E4. clear B. apply app_inv_head in E1, E2, E3. apply decimal_same in E1. apply hex_same in E2; [|assumption..]. apply named_same in E3. subst pka0.
    apply mpis_same in E4; [|now apply session_fits..]. subst. reflexivity.
  - destruct A as (d & D & ->). destruct B as (d' & D' & B). assert (E1 := f_equal (fun l => nth 0 l (leaf [])) B). assert (E2 := f_equal (fun l => match nth 1 l (leaf []) with Tree _ x => x end) B). cbn [nth] in E1, E2. clear B.
    apply leaf_same, app_inv_head in E1. apply format_same in E1; [|assumption..]. apply leaves_same in E2.
    assert (E3 := f_equal (fun l => nth 0 l []) E2). assert (E4 := f_equal (fun l => nth 1 l []) E2). assert (E5 := f_equal (fun l => nth 2 l []) E2). cbn [nth] in E3, E4, E5. clear E2. apply app_inv_head in E3, E4, E5. subst.
    match goal with L : time < _, L' : time0 < _ |- _ => pose proof (C84_unique _ _ _ _ G L L' D D') as -> end. reflexivity.
  - subst ts. assert (E1 := f_equal (fun l => nth 0 l (leaf [])) B). assert (E2 := f_equal (fun l => nth 1 l (leaf [])) B). assert (E3 := f_equal (fun l => nth 2 l (leaf [])) B). assert (E4 := f_equal (skipn 3) B).
    cbn [map app nth skipn] in E1, E2, E3, E4. clear B. apply leaf_same, app_inv_head, decimal_same in E1. apply leaf_same, app_inv_head, named_same in E2. apply s2k_same in E3; [|assumption..].
    assert (E5 : esk = esk0) by (destruct esk, esk0; try discriminate; [|reflexivity]; injection E4 as E4; f_equal; apply hex_same; [now auto..|]; exact E4). subst. reflexivity.
  - destruct A as (d1 & st & D1 & S1 & ->). destruct B as (d2 & st2 & D2 & S2 & B). apply key_split in B as (PK & KL & ST); [|assumption..]. pose proof (keys_same v k k0 d1 d2 G ltac:(assumption) ltac:(assumption) D1 D2 KL) as ->.
    unfold secret_parts in S1, S2. cbn [sk_s2k sk_con sk_sym sk_iv sk_secret] in S1, S2. rewrite S1, S2 in ST. clear S1 S2 KL.
    assert (E1 := f_equal (fun l => nth 0 l (leaf [])) ST). assert (E2 := f_equal (fun l => nth 1 l (leaf [])) ST). assert (E3 := f_equal (fun l => nth 2 l (leaf [])) ST). assert (E4 := f_equal (fun l => nth 3 l (leaf [])) ST).
    assert (E5 := f_equal (fun l => match nth 4 l (leaf []) with Tree _ (Tree h _ :: _) => h | _ => [] end) ST). cbn [nth leaf] in E1, E2, E3, E4, E5. clear ST.
    apply leaf_same, app_inv_head, decimal_same in E1. apply leaf_same, app_inv_head, named_same in E2. apply s2k_same in E3; [|assumption..]. apply leaf_same, app_inv_head in E4; apply hex_same in E4; [|assumption..].
    subst con0. apply app_inv_head in E5; apply hex_same in E5; [|assumption..]. subst. reflexivity.
  - exfalso. destruct A as (d1 & st & D1 & S1 & ->). destruct B as (d2 & st2 & D2 & S2 & B). apply key_split in B as (PK & KL & ST); [|assumption..].
    unfold secret_parts in S1, S2. cbn [sk_s2k sk_con sk_sym sk_iv sk_secret] in S1, S2. destruct S2 as (l2 & c2 & _ & L2 & _ & S2). rewrite S1, S2 in ST. symmetry in ST. exact (open_other _ _ _ _ _ _ L2 ST).
  - exfalso. destruct A as (d1 & st & D1 & S1 & ->). destruct B as (d2 & st2 & D2 & S2 & B). apply key_split in B as (PK & KL & ST); [|assumption..].
    unfold secret_parts in S1, S2. cbn [sk_s2k sk_con sk_sym sk_iv sk_secret] in S1, S2. destruct S1 as (l2 & c2 & _ & L2 & _ & S1). rewrite S1, S2 in ST. exact (open_other _ _ _ _ _ _ L2 ST).
  - destruct A as (d1 & st & D1 & S1 & ->). destruct B as (d2 & st2 & D2 & S2 & B). apply key_split in B as (PK & KL & ST); [|assumption..]. pose proof (keys_same v k k0 d1 d2 G ltac:(assumption) ltac:(assumption) D1 D2 KL) as ->.
    unfold secret_parts in S1, S2. cbn [sk_s2k sk_secret] in S1, S2. destruct S1 as (l1 & c1 & Q1 & L1 & O1 & S1). destruct S2 as (l2 & c2 & Q2 & L2 & O2 & S2). rewrite S1, S2 in ST. apply leaves_same in ST.
    apply app_inj_tail in ST as [ST EC]. apply app_inv_head in EC; apply hex_same in EC; [|assumption..]. apply secret_lines_same in ST; [|assumption..]. subst l2 c2. rewrite Q1, Q2. reflexivity.
  - destruct A as (d1 & P1 & A). destruct B as (d2 & P2 & B). destruct (nested_most v d1 d2 _ _ P1 A) as [P1' A']. destruct (nested_most v d2 d1 _ _ P2 B) as [P2' B']. rewrite Nat.add_comm in P2', B'. f_equal. exact (nested_same v _ G _ _ _ P1' P2' A' B').
Qed.

(** *** The first lines. *)
Definition listed_tags : list N := [1; 2; 3; 4; 5; 6; 7; 9; 10; 11; 12; 13; 14; 18; 19; 60; 61; 62; 63].
Definition title_of (x : header_format * partial_flag * N) : bytes := match tag_title (fst (fst x)) (snd (fst x)) (snd x) with Ok t => t | _ => [] end.
Definition headers : list (header_format * partial_flag * N) := list_prod (list_prod [NEW; OLD] [NOT_PARTIAL; PARTIAL]) listed_tags.
Definition format_eqb (a b : header_format) : bool := match a, b with NEW, NEW | OLD, OLD => true | _, _ => false end.
Definition partial_eqb (a b : partial_flag) : bool := match a, b with PARTIAL, PARTIAL | NOT_PARTIAL, NOT_PARTIAL => true | _, _ => false end.
Definition header_eqb (x y : header_format * partial_flag * N) : bool :=
  format_eqb (fst (fst x)) (fst (fst y)) && (snd x =? snd y) && (partial_eqb (snd (fst x)) (snd (fst y)) || negb (existsb (N.eqb (snd x)) [9; 11; 18])).
Lemma titles_checked : forallb (fun x => forallb (fun y => negb (beq (title_of x) (title_of y)) || header_eqb x y) headers) headers = true.
Proof. vm_compute. reflexivity. Qed.
Lemma titles_neat : forallb (fun x => negb (existsb (N.eqb 10) (title_of x)) && match title_of x with c :: _ => negb (c =? 32) | [] => false end) headers = true.
Proof. vm_compute. reflexivity. Qed.
Lemma printable_header p : printable p -> In (p_format p, p_partial p, p_tag p) headers /\ (In (p_tag p) [9; 11; 18] \/ p_partial p = NOT_PARTIAL).
Proof.
  intros P. split.
  - unfold headers. apply in_prod; [apply in_prod; [destruct (p_format p); cbn; tauto|destruct (p_partial p); cbn; tauto]|].
    destruct P; cbn [p_tag]; try (cbn; tauto); cbn in H; decompose [or] H; try contradiction; subst tag; cbn; tauto.
  - destruct P; cbn [p_tag p_partial]; try (right; reflexivity); left; cbn; tauto.
Qed.
Lemma titles_same p q t : printable p -> printable q -> tag_title (p_format p) (p_partial p) (p_tag p) = Ok t -> tag_title (p_format q) (p_partial q) (p_tag q) = Ok t ->
  p_format p = p_format q /\ p_partial p = p_partial q /\ p_tag p = p_tag q.
Proof.
  intros P Q A B. destruct (printable_header p P) as [IP HP]. destruct (printable_header q Q) as [IQ HQ].
  pose proof titles_checked as C. rewrite forallb_forall in C. specialize (C _ IP). cbv beta in C. rewrite forallb_forall in C. specialize (C _ IQ). cbv beta in C.
  unfold title_of in C. cbn [fst snd] in C. rewrite A, B, beq_refl in C. cbn [negb orb] in C. unfold header_eqb in C. cbn [fst snd] in C.
  apply andb_prop in C as [C C3]. apply andb_prop in C as [C1 C2]. apply N.eqb_eq in C2. split; [destruct (p_format p), (p_format q); reflexivity || discriminate|]. split; [|exact C2].
  apply Bool.orb_prop in C3 as [C3|C3]; [destruct (p_partial p), (p_partial q); reflexivity || discriminate|]. apply Bool.negb_true_iff in C3.
  assert (N : forall x, In x [9; 11; 18] -> existsb (N.eqb x) [9; 11; 18] = true) by (intros x I; cbn in I; decompose [or] I; try contradiction; subst x; reflexivity).
  destruct HP as [HP|HP]; [rewrite (N _ HP) in C3; discriminate|]. destruct HQ as [HQ|HQ]; [rewrite <- C2 in HQ; rewrite (N _ HQ) in C3; discriminate|]. congruence.
Qed.
Lemma title_neat p t : printable p -> tag_title (p_format p) (p_partial p) (p_tag p) = Ok t -> neat t.
Proof.
  intros P A. destruct (printable_header p P) as [IP _]. pose proof titles_neat as C. rewrite forallb_forall in C. specialize (C _ IP). cbv beta in C. unfold title_of in C. cbn [fst snd] in C. rewrite A in C.
  apply andb_prop in C as [C1 C2]. split.
  - intros I. apply Bool.negb_true_iff in C1. assert (X : existsb (N.eqb 10) t = true) by (apply existsb_exists; exists 10; auto). discriminate (eq_trans (eq_sym X) C1).
  - intros r ->. discriminate.
Qed.
Lemma hex_neat d : neat (hexlify d).
Proof.
  split; [apply hex_plain|]. intros r E. destruct d as [|c d]; [discriminate|]. cbn in E. injection E as E _. unfold hexdigit in E. revert E. destruct (_ <? 10); lia.
Qed.
Lemma leaves_clean l : Forall neat l -> Forall clean (map leaf l).
Proof. induction 1; constructor; [now apply leaf_clean|assumption]. Qed.
Lemma bits_neat name a : existsb (N.eqb 10) (str name) = false -> match str name with c :: _ => c <> 32 | [] => False end -> neat (with_bits name a).
Proof.
  intros L B. apply neat_labelled; [exact L|exact B|]. repeat first [apply app_plain | now apply str_plain | apply decimal_plain | apply hex_plain].
Qed.
Lemma numbers_neat names l : Forall (fun n => existsb (N.eqb 10) (str n) = false /\ match str n with c :: _ => c <> 32 | [] => False end) names ->
  Forall neat (map (fun x => with_bits (fst x) (snd x)) (combine names l)).
Proof.
  intros F. apply Forall_forall. intros x I. apply in_map_iff in I as ((m & a) & <- & I). apply in_combine_l in I. rewrite Forall_forall in F. destruct (F m I). now apply bits_neat.
Qed.
Ltac named_now := first [apply named_plain; vm_compute; reflexivity | apply decimal_plain | apply hex_plain | assumption].
Ltac label_now := apply neat_labelled; [reflexivity|vm_compute; discriminate|].
Lemma s2k_clean s : plain_s2k s -> clean (s2k_tree s).
Proof.
  intros P. assert (T : neat (mapped s2k_name (s2k_type s) ++ str " (s2k " ++ Times.decimal (s2k_type s) ++ str "):")).
  { destruct P; cbn [s2k_type]; (split; [intros I; vm_compute in I; decompose [or] I; try discriminate; contradiction|vm_compute; discriminate]). }
  destruct T as [T1 T2]. constructor; [exact T1|exact T2|]. apply leaves_clean. destruct P; unfold s2k_lines; cbn [s2k_kind s2k_hash s2k_salt s2k_count app].
  - repeat (constructor; [label_now; named_now|]). constructor.
  - repeat (constructor; [label_now; named_now|]). constructor.
  - do 2 (constructor; [label_now; named_now|]). constructor; [|constructor]. label_now. repeat first [apply app_plain | now apply str_plain | apply decimal_plain].
Qed.
Lemma key_lines_neat v k d : is_gmtime (v_gmtime v) -> full_key k -> date v (k_time k) = Ok d -> Forall neat (key_lines k d).
Proof.
  intros G F D. assert (T := F). destruct T as (_ & T & _). pose proof (date_plain v _ d G T D) as PD. unfold key_lines. apply Forall_app. split.
  - constructor; [split; [now apply str_plain|discriminate]|]. constructor; [label_now; exact PD|]. constructor; [label_now; named_now|constructor].
  - apply numbers_neat. unfold public_names. destruct (is_RSA (k_pka k)); [|destruct (k_pka k =? 16)]; repeat constructor; vm_compute; discriminate.
Qed.
Lemma lock_neat pka con d : neat (lock_name pka con ++ hexlify d).
Proof.
  split; [|unfold lock_name; destruct (is_RSA pka); [|destruct (pka =? 16); [|destruct (pka =? 17)]]; discriminate]. apply app_plain; [|apply hex_plain].
  unfold lock_name. destruct (is_RSA pka); [|destruct (pka =? 16); [|destruct (pka =? 17)]]; destruct (con =? 254); repeat apply app_plain; now apply str_plain.
Qed.
Lemma secret_lines_neat pka l : Forall neat (map (fun y => secret_line (fst y) (snd y)) (combine (secret_names pka) l)).
Proof.
  apply Forall_forall. intros x I. apply in_map_iff in I as ((m & a) & <- & I). apply in_combine_l in I. cbn [fst snd]. unfold secret_line.
  assert (N : existsb (N.eqb 10) (str m) = false /\ match str m with c :: _ => c <> 32 | [] => False end).
  { unfold secret_names in I. destruct (is_RSA pka); [|destruct (pka =? 16)]; cbn [In] in I; decompose [or] I; try contradiction; subst m; (split; [reflexivity|vm_compute; discriminate]). }
  destruct N as [N1 N2]. apply neat_labelled; [exact N1|exact N2|]. repeat first [apply app_plain | now apply str_plain | apply decimal_plain | apply hex_plain].
Qed.
Lemma heads_neat : forallb (fun x => negb (existsb (N.eqb 10) (sub_head x)) && match sub_head x with c :: _ => negb (c =? 32) | [] => false end) sub_heads = true.
Proof. vm_compute. reflexivity. Qed.
Lemma octet_line_neat label t kind c : existsb (N.eqb 10) (str label) = false -> match str label with x :: _ => x <> 32 | [] => False end -> plain_table t = true -> existsb (N.eqb 10) (str kind) = false -> neat (octet_line label t kind c).
Proof.
  intros L B T K. unfold octet_line. apply neat_labelled; [exact L|exact B|]. apply app_plain; [now apply mapped_plain, table_plain|]. repeat apply app_plain; try (now apply str_plain).
  unfold decimal_z. destruct (_ <? 0)%Z; [|apply decimal_plain]. intros [X|X]; [discriminate|]. revert X. apply decimal_plain.
Qed.
Lemma octet_lines_neat label t kind l : existsb (N.eqb 10) (str label) = false -> match str label with x :: _ => x <> 32 | [] => False end -> plain_table t = true -> existsb (N.eqb 10) (str kind) = false -> Forall neat (map (octet_line label t kind) l).
Proof. intros L B T K. induction l; constructor; [now apply octet_line_neat|assumption]. Qed.
Lemma truth_plain b : single (truth b).
Proof. destruct b; apply str_plain; reflexivity. Qed.
Lemma mask_plain m : single (hex_of_mask m).
Proof.
  unfold hex_of_mask. apply app_plain; [now apply str_plain|]. apply app_plain; [|now apply str_plain]. intros I. unfold makehex in I. cbn [makehex_c app In] in I. destruct I as [I|[I|[]]]; exact (hexdigit_plain _ I).
Qed.
Lemma feature_plain m : single (feature_mask m).
Proof. unfold feature_mask. apply app_plain; [now apply str_plain|]. apply app_plain; [apply decimal_plain|now apply str_plain]. Qed.
Lemma bit_text_neat t text l : plain_table t = true -> (forall m, single (text m)) -> Forall neat (bit_text t text l).
Proof.
  intros T X. apply Forall_forall. intros s I. unfold bit_text in I. apply in_flat_map in I as (o & _ & I). apply in_flat_map in I as (b & _ & I). destruct (N.testbit o b); [|destruct I]. destruct I as [<-|[]].
  unfold bit_line. label_now. apply app_plain; [now apply mapped_plain, table_plain|apply X].
Qed.
Lemma sub_text_neat v created s ls : is_gmtime (v_gmtime v) -> printable_sub s -> sub_text v created s ls -> Forall neat ls.
Proof.
  intros G P A. destruct P; cbn [sub_text] in A; try subst ls;
    try (apply octet_lines_neat; [reflexivity|vm_compute; discriminate|vm_compute; reflexivity|reflexivity]);
    try (repeat (constructor; [label_now; first [apply truth_plain | named_now]|]); apply Forall_nil).
  - destruct A as (d & D & ->). constructor; [label_now; exact (date_plain v _ d G H D)|constructor].
  - constructor; [|constructor; [label_now; assumption|constructor]]. label_now. repeat first [apply app_plain | now apply str_plain | apply decimal_plain]. apply mapped_plain, table_plain. vm_compute. reflexivity.
  - destruct A as (d & D & ->). constructor; [label_now|constructor]. destruct (t =? 0); [apply Ok_inj in D as <-; now apply str_plain|exact (date_plain v _ d G H D)].
  - constructor; [now split|constructor].
  - apply Forall_app. split; [apply octet_lines_neat; [reflexivity|vm_compute; discriminate|vm_compute; reflexivity|reflexivity]|]. repeat (constructor; [label_now; named_now|]). constructor.
  - apply bit_text_neat; [vm_compute; reflexivity|apply mask_plain].
  - apply bit_text_neat; [vm_compute; reflexivity|apply mask_plain].
  - apply bit_text_neat; [vm_compute; reflexivity|apply feature_plain].
  - destruct A as (d & D & ->). constructor; [label_now|constructor]. destruct (t =? 0); [apply Ok_inj in D as <-; now apply str_plain|]. refine (date_plain v _ d G _ D). apply N.mod_lt. discriminate.
Qed.
Lemma sub_clean v (O : tag2 -> Prop) (R : tag2 -> list tree -> Prop) created c t : is_gmtime (v_gmtime v) -> (forall e ts, O e -> R e ts -> Forall clean ts) -> sub_with O (snd c) -> sub_tells v R created c t -> clean t.
Proof.
  intros G M P T. destruct t as [h us]. destruct T as (Hc & T). pose proof (with_type O _ P) as PT. apply sub_titled in Hc; [|exact PT].
  assert (U : Forall clean us).
  { destruct P as [P|(e & Pe & Oe)]; destruct T as [(ls & S & ->)|(e' & k & ts & X & -> & Ek & Re)].
    - apply leaves_clean. eapply sub_text_neat; eassumption.
    - rewrite X in P. inversion P.
    - rewrite Pe in S. destruct S.
    - rewrite X in Pe. injection Pe as ->. constructor; [|constructor]. vm_compute in Ek. apply Ok_inj in Ek as <-. constructor; [|discriminate|exact (M _ _ Oe Re)]. intros I. cbn in I. decompose [or] I; try discriminate; contradiction. }
  assert (I : In (fst c, sub_type (snd c)) sub_heads) by (apply in_prod; [destruct (fst c); cbn; tauto|exact PT]).
  pose proof heads_neat as C. rewrite forallb_forall in C. specialize (C _ I). cbv beta in C. revert Hc C. generalize (sub_head (fst c, sub_type (snd c))). intros x -> C. apply andb_prop in C as [C1 C2].
  constructor; [|destruct x as [|d x]; [discriminate|]; intros r E; cbn [app] in E; injection E as E _; subst d; discriminate|exact U].
  apply app_plain; [|apply app_plain; [apply decimal_plain|now apply str_plain]]. intros X. apply Bool.negb_true_iff in C1. assert (Y : existsb (N.eqb 10) x = true) by (apply existsb_exists; exists 10; split; [exact X|reflexivity]). congruence.
Qed.
Lemma subs_clean v (O : tag2 -> Prop) (R : tag2 -> list tree -> Prop) created l ts : is_gmtime (v_gmtime v) -> (forall e ts, O e -> R e ts -> Forall clean ts) -> Forall (fun c => sub_with O (snd c)) l -> subs_tell v R created l ts -> Forall clean ts.
Proof. intros G M F T. induction T as [|created c t l ts Tc T IH]; [constructor|]. inversion F; subst. constructor; [eapply sub_clean; eassumption|now apply IH]. Qed.
Lemma folder_clean title ts : neat (str title) -> Forall clean ts -> Forall clean (folder title ts).
Proof. intros [A B] F. destruct ts; [constructor|]. constructor; [|constructor]. now constructor. Qed.
Lemma type_neat t : neat (type_text t).
Proof.
  unfold type_text. label_now. apply app_plain; [apply mapped_plain, table_plain; vm_compute; reflexivity|]. apply app_plain; [now apply str_plain|]. apply app_plain; [|now apply str_plain].
  intros I. unfold makehex in I. cbn [makehex_c app In] in I. destruct I as [I|[I|[]]]; exact (hexdigit_plain _ I).
Qed.
Lemma tail_clean l pka m : Forall clean (sig_tail l pka m).
Proof.
  unfold sig_tail. constructor; [apply leaf_clean; label_now; named_now|]. apply leaves_clean, numbers_neat. unfold sig_names. destruct (is_RSA pka); repeat constructor; vm_compute; discriminate.
Qed.
Lemma sig_clean v (O : tag2 -> Prop) (R : tag2 -> list tree -> Prop) s ts : is_gmtime (v_gmtime v) -> (forall e ts, O e -> R e ts -> Forall clean ts) -> sig_with O s -> sig_parts v R s ts -> Forall clean ts.
Proof.
  intros G M P A. destruct P; cbn [sig_parts] in A; change (3 =? 3) with true in A; change (4 =? 3) with false in A; cbv iota in A.
  - destruct A as (d & D & ->). match goal with L : time < _ |- _ => pose proof (date_plain v _ d G L D) as PD end.
    constructor; [apply leaf_clean; split; [now apply str_plain|discriminate]|]. constructor; [|apply tail_clean]. constructor; [now apply str_plain|discriminate|]. apply leaves_clean.
    constructor; [apply type_neat|]. constructor; [label_now; exact PD|]. repeat (constructor; [label_now; named_now|]). constructor.
  - destruct A as (hs & us & A & B & ->). apply Forall_app. split.
    + apply leaves_clean. constructor; [split; [now apply str_plain|discriminate]|]. constructor; [apply type_neat|]. repeat (constructor; [label_now; named_now|]). constructor.
    + apply Forall_app. split; [apply folder_clean; [split; [now apply str_plain|discriminate]|eapply (subs_clean v O R 0 hashed); eassumption]|].
      apply Forall_app. split; [apply folder_clean; [split; [now apply str_plain|discriminate]|eapply (subs_clean v O R 0 unhashed); eassumption]|apply tail_clean].
Qed.
Lemma nested_clean v depth : is_gmtime (v_gmtime v) -> forall s ts, nested depth s -> nested_parts v depth s ts -> Forall clean ts.
Proof. intros G. induction depth as [|d IH]; intros s ts P A; cbn [nested nested_parts] in *; (eapply sig_clean; [exact G| |exact P|exact A]); [intros ? ? []|exact IH]. Qed.
Lemma parts_clean v p ts : is_gmtime (v_gmtime v) -> printable p -> parts v (p_tag p) (p_body p) ts -> Forall clean ts.
Proof.
  intros G P A. destruct P; cbn [p_tag p_body parts] in A.
  - destruct A as (d & D & ->). apply leaves_clean. assert (T := H0). destruct T as (_ & T & _). pose proof (date_plain v _ d G T D) as PD. unfold key_lines. apply Forall_app. split.
    + constructor; [split; [now apply str_plain|discriminate]|]. constructor; [label_now; exact PD|]. constructor; [label_now; named_now|constructor].
    + apply numbers_neat. unfold public_names. destruct (is_RSA (k_pka k)); [|destruct (k_pka k =? 16)]; repeat constructor; vm_compute; discriminate.
  - subst ts. apply (leaves_clean [_]). constructor; [|constructor]. cbn [raw_line]. label_now. apply app_plain; [apply decimal_plain|]. apply app_plain; [now apply str_plain|apply hex_plain].
  - subst ts. apply (leaves_clean [_]). constructor; [|constructor]. cbn in H. decompose [or] H; try contradiction; subst tag; apply hex_neat.
  - subst ts. apply (leaves_clean [_]). constructor; [|constructor]. cbn in H. decompose [or] H; try contradiction; subst tag; cbn [raw_line]; label_now; try assumption.
    apply app_plain; [apply decimal_plain|]. apply app_plain; [now apply str_plain|assumption].
  - subst ts. apply (leaves_clean [_]). constructor; [|constructor]. now split.
  - subst ts. apply leaves_clean. constructor; [label_now; named_now|]. constructor; [|constructor]. label_now. apply app_plain; [apply decimal_plain|]. apply app_plain; [now apply str_plain|apply hex_plain].
  - subst ts. apply leaves_clean. repeat (constructor; [label_now; named_now|]). constructor.
  - subst ts. apply leaves_clean. apply Forall_app. split; [repeat (constructor; [label_now; named_now|]); constructor|].
    apply numbers_neat. unfold session_names. destruct (pka <=? 3); repeat constructor; vm_compute; discriminate.
  - destruct A as (d & D & ->). match goal with L : time < _ |- _ => pose proof (date_plain v _ d G L D) as PD end.
    constructor; [apply leaf_clean; label_now; apply mapped_plain, table_plain; reflexivity|]. constructor; [|constructor].
    assert (N : neat (str "Data (" ++ Times.decimal (1 + len name + 4 + len data) ++ str " octets):")) by (label_now; apply app_plain; [apply decimal_plain|now apply str_plain]).
    destruct N as [N1 N2]. constructor; [exact N1|exact N2|]. apply leaves_clean. repeat (constructor; [label_now; assumption|]). constructor.
  - subst ts. apply Forall_app. split; [apply leaves_clean; repeat (constructor; [label_now; named_now|]); constructor|]. constructor; [now apply s2k_clean|].
    destruct esk; [apply (leaves_clean [_]); constructor; [label_now; named_now|constructor]|constructor].
  - destruct A as (d0 & st & D & S & ->). apply Forall_app. split; [apply leaves_clean; eapply key_lines_neat; eassumption|]. unfold secret_parts in S. cbn [sk_s2k sk_con sk_sym sk_iv sk_secret] in S. rewrite S.
    constructor; [apply leaf_clean; label_now; named_now|]. constructor; [apply leaf_clean; label_now; named_now|]. constructor; [now apply s2k_clean|]. constructor; [apply leaf_clean; label_now; named_now|]. constructor; [|constructor].
    assert (N : neat (str "Encrypted Data (" ++ Times.decimal (len d) ++ str " octets):")) by (label_now; apply app_plain; [apply decimal_plain|now apply str_plain]).
    destruct N as [N1 N2]. constructor; [exact N1|exact N2|]. constructor; [apply leaf_clean, lock_neat|constructor].
  - destruct A as (d0 & st & D & S & ->). apply Forall_app. split; [apply leaves_clean; eapply key_lines_neat; eassumption|]. unfold secret_parts in S. cbn [sk_s2k] in S. destruct S as (l1 & c1 & _ & _ & _ & ->).
    apply leaves_clean, Forall_app. split; [apply secret_lines_neat|]. constructor; [label_now; named_now|constructor].
  - destruct A as (d & P & A). eapply nested_clean; eassumption.
Qed.
Definition tells (v : viewer) (p : packet) (t : tree) : Prop :=
  match t with Tree h us => tag_title (p_format p) (p_partial p) (p_tag p) = Ok h /\ parts v (p_tag p) (p_body p) us end.
Lemma packets_tell v inner : forall ps l, Forall printable ps -> packets_show v inner ps = Ok l -> exists ts, shaped l ts /\ Forall2 (tells v) ps ts.
Proof.
  induction ps as [|p ps IH]; intros l F E; cbn [packets_show] in E; [apply Ok_inj in E as <-; exists []; split; constructor|]. inversion F as [|p' ps' P F']; subst.
  apply bind_ok in E as (x & Ex & E). apply bind_ok in E as (y & Ey & E). apply Ok_inj in E as <-. destruct (IH y F' Ey) as (ts & S & T).
  unfold packet_show in Ex. apply bind_ok in Ex as (h & Eh & Ex). apply bind_ok in Ex as (c & Ec & Ex). apply Ok_inj in Ex as <-.
  destruct (contents_parts v inner p c P Ec) as (us & Su & Pu). exists (Tree h us :: ts). split; [apply (shaped_app _ [_]); [now apply shaped_below|exact S]|]. constructor; [now split|exact T].
Qed.
Lemma tells_clean v ps ts : is_gmtime (v_gmtime v) -> Forall printable ps -> Forall2 (tells v) ps ts -> Forall clean ts.
Proof.
  intros G F T. induction T as [|p [h us] ps ts [Th Pu] T IH]; [constructor|]. inversion F as [|p' ps' P F']; subst. constructor; [|exact (IH F')].
  destruct (title_neat p h P Th) as [A B]. constructor; [exact A|exact B|]. eapply parts_clean; eassumption.
Qed.
Lemma tells_same v ps qs ts : is_gmtime (v_gmtime v) -> Forall printable ps -> Forall printable qs -> Forall2 (tells v) ps ts -> Forall2 (tells v) qs ts -> ps = qs.
Proof.
  intros G F. revert qs ts. induction F as [|p ps P F IH]; intros qs ts H A B; inversion A as [|p' t ps' ts' Tp A']; subst; inversion B as [|q t' qs' ts'' Tq B']; subst; [reflexivity|].
  inversion H as [|q' qs'' Q H']; subst. destruct t as [h us]. destruct Tp as [Tp Pp]. destruct Tq as [Tq Pq]. destruct (titles_same p q h P Q Tp Tq) as (E1 & E2 & E3).
  pose proof (parts_same v p q us G P Q E3 Pp Pq) as E4. f_equal; [destruct p, q; cbn in *; congruence|]. exact (IH qs' ts' H' A' B').
Qed.
(** Two lists of printable packets that look the same are the same; any indentation will do.  Missing:
    signatures with flags of several octets (C91_flags_refuted), compressed packets, user attributes, and
    secret keys protected in the older ways (without S2K or with the simple one), of which too little is
    printed. *)
Theorem C91_faithful_partial v n i ps qs text : is_gmtime (v_gmtime v) -> (1 <= n)%nat -> Forall printable ps -> Forall printable qs ->
  show v i n ps = Ok text -> show v i n qs = Ok text -> ps = qs.
Proof.
  intros G N F H E E'. unfold show, show_events in E, E'. apply bind_ok in E as (l & El & E). apply bind_ok in E' as (m & Em & E'). apply Ok_inj in E, E'. subst text.
  destruct (packets_tell v _ ps l F El) as (ts & S & T). destruct (packets_tell v _ qs m H Em) as (us & S' & T').
  rewrite (shaped_text _ _ n i S), (shaped_text _ _ n i S') in E'. apply C91_outline in E'; [|exact N|first [exact (tells_clean v _ _ G F T) | exact (tells_clean v _ _ G H T')]..]. subst us. exact (tells_same v ps qs ts G F H T T').
Qed.
Lemma with_complete (O : tag2 -> Prop) s : (forall e, O e -> sig_complete e) -> sig_with O s -> sig_complete s.
Proof.
  intros M P. assert (C : forall pka mpi, sig_count pka mpi -> (In pka [1; 2; 3] -> (1 <= length mpi)%nat) /\ (pka = 17 -> (2 <= length mpi)%nat)) by (intros pka mpi [[K L]|[K L]]; rewrite L; cbn [In] in *; split; intros; lia).
  destruct P.
  - constructor; [assumption|now apply C|now apply C|intros ? ? []..].
  - constructor; [reflexivity|now apply C|now apply C|..]; intros b x X; assert (Y : Forall (fun c => sub_with O (snd c)) (hashed ++ unhashed)) by (apply Forall_app; now split);
      rewrite Forall_forall in Y; specialize (Y _ X); cbn [snd] in Y; destruct Y as [Y|(e & Ye & Oe)]; try discriminate; try (inversion Y; assumption). injection Ye as ->. now apply M.
Qed.
Lemma nested_complete depth : forall s, nested depth s -> sig_complete s.
Proof. induction depth as [|d IH]; intros s P; cbn [nested] in P; (eapply with_complete; [|exact P]); [intros e []|exact IH]. Qed.
(** They can all be printed. *)
Theorem C91_printable v n i ps : is_gmtime (v_gmtime v) -> Forall printable ps -> exists text, show v i n ps = Ok text.
Proof.
  intros G F. apply C91_total; [exact G|]. eapply Forall_impl; [|exact F]. clear. intros p P. split.
  - destruct (printable_header p P) as [I _]. unfold headers in I. apply in_prod_iff in I as [_ I]. revert I. generalize (p_tag p). intros t I.
    cbn in I. decompose [or] I; try contradiction; subst t; eexists; unfold kinds; repeat first [left; reflexivity | right].
  - destruct P; cbn [p_body]; try exact I.
    + destruct H0 as (V & T & _ & K). split; [exact T|]. split; [lia|]. intros _. cbn [In] in *. destruct K as [[K L]|[[K L]|[K L]]]; rewrite L; repeat split; intros; lia.
    + destruct H0 as [[L M]|[L M]]; rewrite M; split; lia.
    + assumption.
    + intros x X. injection X as <-. match goal with Q : plain_s2k _ |- _ => destruct Q; cbn; tauto end.
    + destruct H0 as (V & T & _ & K). split; [split; [exact T|]; split; [lia|]; intros _; cbn [In] in *; destruct K as [[K L]|[[K L]|[K L]]]; rewrite L; repeat split; intros; lia|].
      cbn [sk_con sk_s2k sk_secret]. split; [|cbn in H1; lia]. intros _. eexists. split; [reflexivity|]. match goal with Q : plain_s2k _ |- _ => destruct Q; cbn; tauto end.
    + destruct H0 as (V & T & _ & K). split; [split; [exact T|]; split; [lia|]; intros _; cbn [In] in *; destruct K as [[K L]|[[K L]|[K L]]]; rewrite L; repeat split; intros; lia|].
      cbn [sk_con sk_s2k sk_secret]. split; [lia|]. intros _. exists l, c. split; [reflexivity|]. split; [assumption|].
      destruct H1 as [[I1 L]|[I1 L]]; rewrite L; cbn [In] in *; split; intros; lia.
    + destruct H as (d & N). now apply (nested_complete d).
Qed.

(** The numbers of every public key are printed with their numbers of bits. *)
Lemma in_concat_holds {A} (f : A -> bytes) l x : In x l -> exists pre post, concat (map f l) = pre ++ f x ++ post.
Proof. intros I. apply in_split in I as (a & b & ->). exists (concat (map f a)), (concat (map f b)). rewrite map_app, concat_app. reflexivity. Qed.
Theorem C91_bits v n i ps text tag f k a : is_gmtime (v_gmtime v) -> Forall printable ps -> show v i n ps = Ok text -> In (mkPacket tag f NOT_PARTIAL (PKey k)) ps -> In a (k_mpi k) ->
  exists pre ds post, text = pre ++ str " (" ++ ds ++ str " bits): " ++ hexlify (mpitoraw a) ++ [10] ++ post /\ digits ds /\ a < 2 ^ number ds /\ (0 < a -> 2 ^ (number ds - 1) <= a).
Proof.
  intros G F E I J. unfold show, show_events in E. apply bind_ok in E as (l & El & E). apply Ok_inj in E as <-. destruct (packets_tell v _ ps l F El) as (ts & S & T). rewrite (shaped_text _ _ n i S).
  assert (X : exists t, In t ts /\ tells v (mkPacket tag f NOT_PARTIAL (PKey k)) t).
  { clear - T I. induction T as [|p t ps ts Tp T IH]; [destruct I|]. destruct I as [->|I]; [exists t; split; [now left|exact Tp]|]. destruct (IH I) as (u & U & Y). exists u. split; [now right|exact Y]. }
  destruct X as (t & It & Tt). destruct t as [h us]. destruct Tt as [_ Tt]. cbn [p_tag p_body parts] in Tt. destruct Tt as (d & D & ->).
  rewrite Forall_forall in F. pose proof (F _ I) as P. inversion P; subst. assert (W := full_whole _ ltac:(eassumption)).
  assert (K : exists name, In (leaf (with_bits name a)) (map leaf (key_lines k d))).
  { pose proof (whole_names k W) as L. unfold key_lines. apply In_nth_error in J as (m & J). destruct (nth_error (public_names (k_pka k)) m) as [name|] eqn:N.
    - exists name. apply in_map, in_or_app. right. apply in_map_iff. exists (name, a). split; [reflexivity|]. clear - L J N. revert L J N. generalize (public_names (k_pka k)) as q. generalize (k_mpi k) as r. induction m as [|m IH]; intros [|x r] [|y q] L J N; cbn in *; try discriminate; [left; congruence|right; apply IH; congruence].
    - exfalso. apply nth_error_None in N. assert (m < length (k_mpi k))%nat by (apply nth_error_Some; congruence). lia. }
  destruct K as (name & K). destruct (in_concat_holds (drawn n i) ts _ It) as (p1 & q1 & ->). cbn [drawn]. destruct (in_concat_holds (drawn n (Datatypes.S i)) _ _ K) as (p2 & q2 & ->). cbn [drawn leaf map concat]. unfold with_bits, mpitohex.
  exists (p1 ++ repeat 32 (n * i) ++ h ++ [10] ++ p2 ++ repeat 32 (n * Datatypes.S i) ++ str name), (Times.decimal (bitsize a)), (q2 ++ q1). split; [rewrite <- !app_assoc; cbn [app]; reflexivity|].
  split; [apply decimal_digits|]. rewrite decimal_number. split; [unfold bitsize; apply N.lt_le_trans with (2 ^ N.size a); [apply N.size_gt|apply N.pow_le_mono_r; lia]|].
  intros A. destruct (N.le_gt_cases (2 ^ (bitsize a - 1)) a) as [Q|Q]; [exact Q|]. exfalso. destruct (N.le_gt_cases (bitsize a) 1) as [B|B].
  - replace (bitsize a - 1) with 0 in Q by lia. cbn in Q. lia.
  - apply bitsize_le in Q; lia.
Qed.

(** Of the secret keys left out too little is printed.  With the simple S2K the IV is not printed, *)
Theorem C91_iv_refuted v i n tag f k con sym hash iv iv' d : 253 < con ->
  show v i n [mkPacket tag f NOT_PARTIAL (PSecret k (mkSecret con sym (Some (mkS2k S2K0 0 hash [] 0)) iv d))] =
  show v i n [mkPacket tag f NOT_PARTIAL (PSecret k (mkSecret con sym (Some (mkS2k S2K0 0 hash [] 0)) iv' d))].
Proof. intros C. unfold show, show_events, packets_show, packet_show. cbn [p_format p_partial p_tag p_body contents_show]. unfold secret_show. cbn [sk_con sk_sym sk_s2k sk_iv sk_secret s2k_type]. reflexivity. Qed.
(** and of keys encrypted with a cipher and the MD5 hash of the passphrase neither the cipher is. *)
Theorem C91_cipher_refuted v i n tag f k con con' sym sym' s s' iv iv' d : 0 < con < 254 -> 0 < con' < 254 ->
  show v i n [mkPacket tag f NOT_PARTIAL (PSecret k (mkSecret con sym s iv d))] = show v i n [mkPacket tag f NOT_PARTIAL (PSecret k (mkSecret con' sym' s' iv' d))].
Proof.
  intros C C'. unfold show, show_events, packets_show, packet_show. cbn [p_format p_partial p_tag p_body contents_show].
  assert (E : secret_show (k_pka k) (mkSecret con sym s iv d) = secret_show (k_pka k) (mkSecret con' sym' s' iv' d)); [|now rewrite E].
  unfold secret_show. cbn [sk_con sk_sym sk_s2k sk_iv sk_secret]. replace (253 <? con) with false by lia. replace (253 <? con') with false by lia. replace (con =? 0) with false by lia. replace (con' =? 0) with false by lia.
  replace (con =? 254) with false by lia. replace (con' =? 254) with false by lia. reflexivity.
Qed.

(** *** Examples. *)
Example C91_printable_ex : Forall printable [some_key; uid_packet (str "me"); mkPacket 11 OLD PARTIAL (PLiteral 98 (str "f") 5 (str "hello"))].
Proof.
  constructor; [constructor; [cbn; tauto|apply C91_key_ex]|]. constructor; [constructor; [cbn; tauto|apply str_plain; reflexivity]|]. constructor; [|constructor].
  constructor; [cbn; tauto|apply str_plain; reflexivity|apply str_plain; reflexivity|reflexivity].
Qed.
Example C91_secret_ex : forall k, full_key k -> k_pka k = 1 ->
  Forall printable [mkPacket 3 NEW NOT_PARTIAL (PSymSession 4 9 (Some (mkS2k S2K3 3 2 (repeat 7 8) 96)) (Some [1; 2]));
                    mkPacket 5 NEW NOT_PARTIAL (PSecret k (mkSecret 254 9 (Some (mkS2k S2K3 3 2 (repeat 7 8) 96)) (repeat 1 16) (repeat 2 40)));
                    mkPacket 7 OLD NOT_PARTIAL (PSecret k (mkSecret 0 0 None [] (concat (map write_MPI [5; 3; 7; 1]) ++ [0; 9])))].
Proof.
  intros k F P. constructor; [|constructor; [|constructor; [|constructor]]].
  - constructor; [constructor; apply octets_repeat; reflexivity|]. intros e E. injection E as <-. apply octetsb_spec. reflexivity.
  - apply p_locked; [cbn; tauto|exact F|cbn; tauto|constructor; apply octets_repeat; reflexivity|discriminate|apply octets_repeat; reflexivity|apply octets_repeat; reflexivity].
  - apply p_open; [cbn; tauto|exact F|left; rewrite P; split; [cbn; tauto|reflexivity]| |apply octetsb_spec; reflexivity|reflexivity]. repeat (constructor; [vm_compute; discriminate|]). constructor.
Qed.
(** The third binds a subkey and has the signature of the subkey in it. *)
Example C91_signature_ex : Forall printable
  [mkPacket 2 NEW NOT_PARTIAL (PSig (mkTag2 4 16 17 8 [77; 78] [1; 2] 0 [] [(false, Sub2 1000000); (true, Sub11 [9; 200]); (false, Sub29 1 (str "lost")); (false, Sub9 86400); (false, Sub27 [3])] [(false, Sub16 (repeat 171 8))]));
   mkPacket 2 OLD NOT_PARTIAL (PSig (mkTag2 3 0 1 2 [77] [1; 2] 5 (repeat 171 8) [] []));
   mkPacket 2 NEW NOT_PARTIAL (PSig (mkTag2 4 24 1 8 [77] [1; 2] 0 [] [(false, Sub27 [2])] [(true, Sub32 (Some (mkTag2 4 25 1 8 [78] [3; 4] 0 [] [(false, Sub2 1000000)] [])))]))].
Proof.
  repeat (apply Forall_cons; [|]); [..|apply Forall_nil]; apply p_signature.
  - exists O. apply ps_fourth; [reflexivity|right; split; reflexivity|apply octetsb_spec; reflexivity| |].
    + repeat (apply Forall_cons; [left|]); [..|apply Forall_nil]; constructor; try reflexivity; try discriminate; try (apply str_plain; reflexivity). apply octetsb_spec. reflexivity.
    + repeat (apply Forall_cons; [left|]); [..|apply Forall_nil]; constructor. apply octetsb_spec. reflexivity.
  - exists O. apply ps_third; [reflexivity|left; split; [cbn; tauto|reflexivity]|apply octetsb_spec; reflexivity|reflexivity|apply octetsb_spec; reflexivity].
  - exists 1%nat. apply ps_fourth; [reflexivity|left; split; [cbn; tauto|reflexivity]|apply octetsb_spec; reflexivity| |].
    + repeat (apply Forall_cons; [left|]); [..|apply Forall_nil]; constructor; reflexivity.
    + apply Forall_cons; [right|apply Forall_nil]. eexists. split; [reflexivity|]. apply ps_fourth; [reflexivity|left; split; [cbn; tauto|reflexivity]|apply octetsb_spec; reflexivity| |apply Forall_nil].
      apply Forall_cons; [left; constructor; reflexivity|apply Forall_nil].
Qed.
(** Such keys are read. *)
Example C91_iv_ex : forall x, x < 256 -> read_raw ([148; 37; 4; 0; 0; 0; 0; 1; 0; 1; 1; 0; 1; 1; 254; 7; 0; 2] ++ repeat x 16 ++ repeat 9 5) =
    Ok [mkPacket 5 OLD NOT_PARTIAL (PSecret (mkKey 4 0 1 [1; 1] 0) (mkSecret 254 7 (Some (mkS2k S2K0 0 2 [] 0)) (repeat x 16) (repeat 9 5)))].
Proof. intros x _. vm_compute. reflexivity. Qed.
Example C91_cipher_ex : read_raw ([148; 34; 4; 0; 0; 0; 0; 1; 0; 1; 1; 0; 1; 1; 7] ++ repeat 3 16 ++ repeat 9 5) = Ok [mkPacket 5 OLD NOT_PARTIAL (PSecret (mkKey 4 0 1 [1; 1] 0) (mkSecret 7 7 None (repeat 3 16) (repeat 9 5)))] /\
  read_raw ([148; 34; 4; 0; 0; 0; 0; 1; 0; 1; 1; 0; 1; 1; 9] ++ repeat 4 16 ++ repeat 9 5) = Ok [mkPacket 5 OLD NOT_PARTIAL (PSecret (mkKey 4 0 1 [1; 1] 0) (mkSecret 9 9 None (repeat 4 16) (repeat 9 5)))].
Proof. split; vm_compute; reflexivity. Qed.
(** Without indentation, or with line ends in texts, outlines have several readings. *)
Example C91_flat_ex : concat (map (drawn 0 0) [Tree (str "a") [Tree (str "b") []]]) = concat (map (drawn 0 0) [Tree (str "a") []; Tree (str "b") []]).
Proof. reflexivity. Qed.
Print Assumptions C91_outline. Print Assumptions C91_faithful_partial. Print Assumptions C91_printable. Print Assumptions C91_bits. Print Assumptions C91_iv_refuted. Print Assumptions C91_cipher_refuted.
