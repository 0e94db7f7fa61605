(** Merging of keys: Key::get_pkey, merge, flatten and get_elements_by_key, src/Key.cpp
    193-244 and 418-522, include/Key.h 39-58. *)
From Verif Require Export Model.Key.

(** A Packet::Tag::Ptr: the address of the object, by which the multimaps are ordered, and the
    object.  Addresses are whatever the allocator returned. *)
Definition ptr : Type := (N * packet)%type.
Definition tag_of (p : ptr) : N := p_tag (snd p).
(** operator== of Tag::Ptr, Packet.h 179-182. *)
Definition same_packet (p q : ptr) : result bool :=
  if tag_of p =? tag_of q then
    a <- raw (p_body (snd p)) ;; b <- raw (p_body (snd q)) ;; Ok (beq a b)
  else Ok false.
(** std::find(np.begin(), np.end(), p) != np.end(). *)
Fixpoint found (np : list ptr) (p : ptr) : result bool :=
  match np with
  | [] => Ok false
  | q :: r => b <- same_packet q p ;; if b : bool then Ok true else found r p
  end.
(** SigPairs, Key.h 40, in the order of iteration; insert places a pair after those whose key
    is not greater. *)
Definition sig_pairs : Type := list (ptr * ptr).
Fixpoint mm_insert (x : ptr * ptr) (m : sig_pairs) : sig_pairs :=
  match m with
  | [] => [x]
  | y :: r => if fst (fst x) <? fst (fst y) then x :: m else y :: mm_insert x r
  end.
Definition mm_join (m n : sig_pairs) : sig_pairs := fold_left (fun m x => mm_insert x m) n m.

(** pkey, Key.h 43-50. *)
Record pkey := mkPkey {
  pk_key : ptr; pk_keySigs : sig_pairs; pk_uids : sig_pairs; pk_subKeys : sig_pairs; pk_atts : sig_pairs; pk_list : list ptr }.
(** The loop of get_pkey, 203-243: [u], [i] and [s] are lastUser_userAtt, lastUserID and
    lastSubkey. *)
Fixpoint pkey_loop (pk : pkey) (u i s : option ptr) (ps : list ptr) : result pkey :=
  match ps with
  | [] => Ok pk
  | p :: r =>
    let 'mkPkey k ks us ss ua l := pk in
    if tag_of p =? 2 then
      match u, s with
      | None, None => pkey_loop (mkPkey k (mm_insert (k, p) ks) us ss ua l) u i s r
      | Some o, None => pkey_loop (mkPkey k ks (mm_insert (o, p) us) ss ua l) u i s r
      | None, Some o => pkey_loop (mkPkey k ks us (mm_insert (o, p) ss) ua l) u i s r
      | Some _, Some _ => Throw ELogic
      end
    else if tag_of p =? 17 then
      match i with
      | None => Throw ERuntime
      | Some o => pkey_loop (mkPkey k ks us ss (mm_insert (o, p) ua) l) (Some p) i None r
      end
    else if tag_of p =? 13 then pkey_loop (mkPkey k ks us ss ua (l ++ [p])) (Some p) (Some p) None r
    else if (tag_of p =? 7) || (tag_of p =? 14) then pkey_loop pk None None (Some p) r
    else Throw ERuntime
  end.
(** get_pkey, 193-244, of a key of armor type [type]. *)
Definition get_pkey (type : N) (ps : list ptr) : result pkey :=
  m <- key_meaningful type (map snd ps) ;;
  if m then
    p <- vec_at ps 0 ;; pkey_loop (mkPkey p [] [] [] [] []) None None None (skipn 1 ps)
  else Throw ERuntime.

(** get_elements_by_key, 418-426. *)
Fixpoint elements (m : sig_pairs) (key : ptr) : result (list ptr) :=
  match m with
  | [] => Ok []
  | (a, b) :: r => e <- same_packet a key ;; t <- elements r key ;; Ok (if e : bool then b :: t else t)
  end.
(** The loops that push what is not there yet, for instance 505-510. *)
Fixpoint push_new (np l : list ptr) : result (list ptr) :=
  match l with
  | [] => Ok np
  | p :: r => b <- found np p ;; push_new (if b : bool then np else np ++ [p]) r
  end.
(** Attributes with their signatures in [sp], 458-469 and 514-524. *)
Fixpoint push_atts (sp : sig_pairs) (np l : list ptr) : result (list ptr) :=
  match l with
  | [] => Ok np
  | p :: r =>
    b <- found np p ;;
    np <- (if b : bool then Ok np else e <- elements sp p ;; push_new (np ++ [p]) e) ;;
    push_atts sp np r
  end.
(** flatten, 484-527, with the pairs still to come in [it]. *)
Fixpoint flatten (sp ua it : sig_pairs) (np : list ptr) : result (list ptr) :=
  match it with
  | [] => Ok np
  | (a, _) :: r =>
    if tag_of a =? 17 then flatten sp ua r np
    else
      b <- found np a ;;
      np <- (if b : bool then Ok np
             else
               e <- elements sp a ;;
               np <- push_new (np ++ [a]) e ;;
               if tag_of a =? 13 then l <- elements ua a ;; push_atts sp np l else Ok np) ;;
      flatten sp ua r np
  end.
(** The users that are left, 452-472. *)
Fixpoint push_users (sp ua : sig_pairs) (np l : list ptr) : result (list ptr) :=
  match l with
  | [] => Ok np
  | p :: r =>
    b <- found np p ;;
    np <- (if b : bool then Ok np else e <- elements ua p ;; push_atts sp (np ++ [p]) e) ;;
    push_users sp ua np r
  end.
(** merge, 428-482: the packets the key has afterwards, and whether it returns (it throws
    std::logic_error when the key is no longer meaningful, the packets being replaced
    already). *)
Definition merge (type type' : N) (ps ps' : list ptr) : result (list ptr * bool) :=
  pk1 <- get_pkey type ps ;;
  pk2 <- get_pkey type' ps' ;;
  same <- same_packet (pk_key pk1) (pk_key pk2) ;;
  if negb same then Throw ERuntime
  else
    let ks := mm_join (pk_keySigs pk1) (pk_keySigs pk2) in
    let us := mm_join (pk_uids pk1) (pk_uids pk2) in
    let ss := mm_join (pk_subKeys pk1) (pk_subKeys pk2) in
    let ua := mm_join (pk_atts pk1) (pk_atts pk2) in
    np <- push_new [pk_key pk1] (map snd ks) ;;
    np <- flatten us ua us np ;;
    np <- push_users us ua np (pk_list pk1 ++ pk_list pk2) ;;
    np <- flatten ss ua ss np ;;
    m <- key_meaningful type (map snd np) ;;
    Ok (np, m).
