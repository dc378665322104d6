(** Extension payloads: programs/asset/types/src/extensions/*.rs. *)
From Verif Require Import Base State Constr.
From Coq Require Import Strings.Byte.

(** U8PrefixStr::from_bytes (podded 0.5.1, assumed): one length byte, then that
    many bytes; panics when there are not enough bytes.  UTF-8 validity is not
    modelled. *)
Definition pstr (b : bytes) : res bytes :=
  match b with
  | [] => Panic
  | n :: r => guard (b2z n <=? zlen r) (Ok (firstn (Z.to_nat (b2z n)) r))
  end.
Definition pstr_size (s : bytes) : Z := 1 + zlen s.
Definition drop (n : Z) (b : bytes) : bytes := skipn (Z.to_nat n) b.

(** Attributes/Links: a sequence of pairs of strings — attributes.rs:40-50,
    74-84, 110-126; links.rs:29-39, 63-73, 99-115.  (Same panics for the
    immutable and the mutable parse.) *)
Fixpoint parse_pairs (fuel : nat) (b : bytes) : res (list (bytes * bytes)) :=
  match fuel with
  | O => Diverge
  | S f =>
      match b with
      | [] => Ok []
      | _ =>
          n <- pstr b ;;
          v <- pstr (drop (pstr_size n) b) ;;
          l <- parse_pairs f (drop (pstr_size n + pstr_size v) b) ;;
          Ok ((n, v) :: l)
      end
  end.
Definition attributes_from_bytes (b : bytes) := parse_pairs (S (length b)) b.
Definition links_from_bytes (b : bytes) := parse_pairs (S (length b)) b.
(** Attributes::get — attributes.rs:21-26 *)
Definition pairs_get (name : bytes) (l : list (bytes * bytes)) : option bytes :=
  match find (fun p => bytes_eqb (fst p) name) l with
  | Some p => Some (snd p) | None => None end.

(** Blob — blob.rs:21-25, 43-51 *)
Definition blob_from_bytes (b : bytes) : res (bytes * bytes) :=
  s <- pstr b ;; Ok (s, drop (pstr_size s) b).

(** Metadata — metadata.rs:30-54, 93-131: symbol, description, uri, image_uri
    (image_uri empty when no bytes are left) *)
Definition metadata_from_bytes (b : bytes) : res (bytes * bytes * bytes * bytes) :=
  s <- pstr b ;;
  let b1 := drop (pstr_size s) b in
  d <- pstr b1 ;;
  let b2 := drop (pstr_size d) b1 in
  u <- pstr b2 ;;
  let b3 := drop (pstr_size u) b2 in
  match b3 with
  | [] => Ok (s, d, u, [])
  | _ => i <- pstr b3 ;; Ok (s, d, u, i)
  end.

(** Properties — properties.rs:48-58, 138-150, 192-256, 277-289 *)
Inductive prop_val : Set := PText (s : bytes) | PNumber (b8 : bytes) | PBoolean (b : byte).
Definition prop_val_size (v : prop_val) : Z :=
  match v with PText s => 1 + pstr_size s | PNumber b8 => 1 + zlen b8 | PBoolean _ => 2 end.
Definition parse_prop_val (v : bytes) : res prop_val :=
  match v with
  | [] => Panic
  | t :: r =>
      if b2z t =? 0 then s <- pstr r ;; Ok (PText s)
      else if b2z t =? 1 then guard (8 <=? zlen r) (Ok (PNumber (firstn 8 r)))
      else if b2z t =? 2 then
        match r with [] => Panic | x :: _ => Ok (PBoolean x) end
      else Panic
  end.
Fixpoint parse_props (fuel : nat) (b : bytes) : res (list (bytes * prop_val)) :=
  match fuel with
  | O => Diverge
  | S f =>
      match b with
      | [] => Ok []
      | _ =>
          n <- pstr b ;;
          v <- parse_prop_val (drop (pstr_size n) b) ;;
          l <- parse_props f (drop (pstr_size n + prop_val_size v) b) ;;
          Ok ((n, v) :: l)
      end
  end.
Definition properties_from_bytes (b : bytes) := parse_props (S (length b)) b.

(** Creators — creators.rs:34-37, 61-64, 133-145: [bytemuck::cast_slice], 34 bytes
    each, panics unless the length is a multiple of 34. *)
Record creator := mkCreator { cr_addr : bytes; cr_verified : byte; cr_share : byte }.
Fixpoint dec_creators (n : nat) (b : bytes) : list creator :=
  match n with
  | O => []
  | S n' => mkCreator (firstn 32 b) (byte_at b 32) (byte_at b 33) :: dec_creators n' (skipn 34 b)
  end.
Definition enc_creator (c : creator) : bytes := cr_addr c ++ [cr_verified c; cr_share c].
Definition enc_creators (l : list creator) : bytes := concat (map enc_creator l).
Definition creators_from_bytes (b : bytes) : res (list creator) :=
  guard (zlen b mod 34 =? 0) (Ok (dec_creators (Nat.div (length b) 34) b)).
(** Creators::get — creators.rs:24-28, 51-55 *)
Definition creators_get (a : bytes) (l : list creator) : option creator :=
  find (fun c => bytes_eqb (cr_addr c) a) l.
(** the [u8] total of the shares; [total += share] wraps (creators.rs:80, 105) *)
Definition share_total (l : list creator) : Z :=
  fold_left (fun t c => (t + b2z (cr_share c)) mod 256) l 0.

Definition initial_verified (authority : option bytes) (a : bytes) : byte :=
  match authority with Some k => bool_byte (bytes_eqb k a) | None => x00 end.

(** CreatorsMut::on_create — creators.rs:69-88 *)
Definition creators_on_create (auth : option bytes) (l : list creator) : res (list creator) :=
  let l' := map (fun c => mkCreator (cr_addr c) (initial_verified auth (cr_addr c)) (cr_share c)) l in
  if share_total l' =? 100 then Ok l' else Err (LInvalidCreatorsTotalShare 100 (share_total l')).

(** the loop creators.rs:112-127 *)
Fixpoint check_kept (orig : list creator) (other : list creator) : res unit :=
  match orig with
  | [] => Ok tt
  | c :: r =>
      if pod_true (cr_verified c) then
        match creators_get (cr_addr c) other with
        | Some u => if pod_true (cr_verified u) then check_kept r other
                    else Err LCannotUnverifyCreator
        | None => Err LCannotRemoveVerifiedCreator
        end
      else check_kept r other
  end.
(** CreatorsMut::on_update — creators.rs:90-130; [cur] is self, [l] other *)
Definition creators_on_update (auth : option bytes) (cur l : list creator) : res (list creator) :=
  let l' := map (fun c =>
      mkCreator (cr_addr c)
        (match creators_get (cr_addr c) cur with
         | Some o => cr_verified o
         | None => initial_verified auth (cr_addr c)
         end) (cr_share c)) l in
  if share_total l' =? 100 then
    u <- check_kept cur l' ;; Ok l'
  else Err (LInvalidCreatorsTotalShare 100 (share_total l')).

(** Grouping — grouping.rs:39-54, 82-97: size u64, max_size u64 (0 = none),
    delegate 32 bytes (all zero when fewer than 32 bytes are left; more than 32
    is a size mismatch panic).  [bytemuck::from_bytes::<u64>] needs alignment 8. *)
Record grouping := mkGrouping { g_size : Z; g_max : Z; g_delegate : bytes }.
Definition grouping_from_bytes (al : Z) (b : bytes) : res grouping :=
  guard (16 <=? zlen b)
   (guard (al mod 8 =? 0)
    (let del := skipn 16 b in
     guard (zlen del <=? 32)
      (Ok (mkGrouping (le_dec (fld b 0 8)) (le_dec (fld b 8 8))
            (if zlen del <? 32 then zero32 else del))))).
(** writing [*grouping.size] *)
Definition set_size (b : bytes) (s : Z) : bytes := put b 0 (le_enc 8 s).

(** Royalties — royalties.rs:16-26, 41-51 *)
Definition royalties_from_bytes (al : Z) (b : bytes) : res (Z * constr) :=
  guard (8 <=? zlen b)
   (guard (al mod 8 =? 0)
    (c <- constr_from_bytes (al + 8) (skipn 8 b) ;;
     Ok (le_dec (fld b 0 8), c))).

(** Manager — manager.rs:23-26, 49-52 *)
Definition manager_from_bytes (b : bytes) : res delegate := load_delegate b.

(** Proxy — proxy.rs:32-49, 87-104: exactly 97 bytes *)
Record proxy := mkProxy { p_program : bytes; p_seeds : bytes; p_bump : byte; p_authority : bytes }.
Definition proxy_from_bytes (b : bytes) : res proxy :=
  guard (zlen b =? 97)
    (Ok (mkProxy (fld b 0 32) (fld b 32 32) (byte_at b 64) (fld b 65 32))).

Definition unit_of {A} (m : res A) : res unit := x <- m ;; Ok tt.

(** on_create — extensions/mod.rs:295-343: the payload is parsed mutably and the
    type's hook runs; the result is the payload as the hook leaves it.  [al]:
    address of the payload modulo 8. *)
Definition on_create (t : ext_type) (al : Z) (auth : option bytes) (b : bytes) : res bytes :=
  match t with
  | XNone => Ok b
  | XAttributes => x <- attributes_from_bytes b ;; Ok b
  | XBlob => x <- blob_from_bytes b ;; Ok b
  | XCreators => l <- creators_from_bytes b ;; l' <- creators_on_create auth l ;; Ok (enc_creators l')
  | XLinks => x <- links_from_bytes b ;; Ok b
  | XMetadata => x <- metadata_from_bytes b ;; Ok b
  | XGrouping =>          (* grouping.rs:101-107 *)
      g <- grouping_from_bytes al b ;;
      if 0 <? g_size g then Err LInvalidGroupSize else Ok b
  | XRoyalties =>         (* royalties.rs:55-64 *)
      r <- royalties_from_bytes al b ;;
      if 10000 <? fst r then Err LInvalidRoyaltyBasisPoints else Ok b
  | XManager => x <- manager_from_bytes b ;; Ok b
  | XProxy => x <- proxy_from_bytes b ;; Ok b
  | XProperties => x <- properties_from_bytes b ;; Ok b
  | XBucket => Ok b
  end.

(** on_update — extensions/mod.rs:312-327; [cur] the stored payload, [b] the new
    one; returns the new payload as the hook leaves it. *)
Definition on_update (t : ext_type) (al_cur : Z) (cur : bytes) (al : Z) (b : bytes)
    (auth : option bytes) : res bytes :=
  match t with
  | XNone => Ok b
  | XAttributes => x <- attributes_from_bytes cur ;; x <- attributes_from_bytes b ;; Ok b
  | XBlob => x <- blob_from_bytes cur ;; x <- blob_from_bytes b ;; Ok b
  | XCreators =>
      c <- creators_from_bytes cur ;; l <- creators_from_bytes b ;;
      l' <- creators_on_update auth c l ;; Ok (enc_creators l')
  | XLinks => x <- links_from_bytes cur ;; x <- links_from_bytes b ;; Ok b
  | XMetadata => x <- metadata_from_bytes cur ;; x <- metadata_from_bytes b ;; Ok b
  | XGrouping =>          (* grouping.rs:109-121 *)
      c <- grouping_from_bytes al_cur cur ;;
      g <- grouping_from_bytes al b ;;
      if negb (g_max g =? 0) && (g_max g <? g_size c)
      then Err (LInvalidMaximumGroupSize (g_size c) (g_max g))
      else Ok (set_size b (g_size c))
  | XRoyalties =>         (* royalties.rs:66-76 *)
      c <- royalties_from_bytes al_cur cur ;;
      r <- royalties_from_bytes al b ;;
      if 10000 <? fst r then Err LInvalidRoyaltyBasisPoints else Ok b
  | XManager => x <- manager_from_bytes cur ;; x <- manager_from_bytes b ;; Ok b
  | XProxy =>             (* proxy.rs:108-114 *)
      c <- proxy_from_bytes cur ;; p <- proxy_from_bytes b ;;
      if negb (bytes_eqb (p_program c) (p_program p)) ||
         negb (bytes_eqb (p_seeds c) (p_seeds p)) ||
         negb (beqb (p_bump c) (p_bump p))
      then Err LCannotModifyDerivationData else Ok b
  | XProperties => x <- properties_from_bytes cur ;; x <- properties_from_bytes b ;; Ok b
  | XBucket => Ok b
  end.

(** ** Builders *)
(** a string appended through a fresh [U8PrefixStrMut::new(&mut buf[cursor..])] of
    size [len + 1] (attributes.rs:172-186 etc.): the length byte is the [u8] cast
    of the string length. *)
Definition enc_pstr (s : bytes) : bytes := z2b (zlen s) :: s.
Definition build_pairs (l : list (bytes * bytes)) : bytes :=
  concat (map (fun p => enc_pstr (fst p) ++ enc_pstr (snd p)) l).
Definition build_attributes := build_pairs. (* attributes.rs:172-186 *)
Definition build_links := build_pairs.      (* links.rs:161-176 *)
Definition build_blob (ct data : bytes) : bytes := enc_pstr ct ++ data. (* blob.rs:70-84 *)
Definition build_bucket (data : bytes) : bytes := data.                 (* bucket.rs:53-60 *)
Definition opt_pstr (o : option bytes) : bytes :=
  match o with Some s => enc_pstr s | None => [x00] end.
Definition build_metadata (s d u i : option bytes) : bytes :=           (* metadata.rs:150-205 *)
  opt_pstr s ++ opt_pstr d ++ opt_pstr u ++ opt_pstr i.
(** CreatorsBuilder::add — creators.rs:187-201; [count] is a [u8]. *)
Definition add_creator (st : Z * bytes) (c : creator) : Z * bytes :=
  let '(count, data) := st in
  ((count + 1) mod 256, put (data ++ zeros 34) (count * 34) (enc_creator c)).
Definition build_creators (l : list creator) : bytes := snd (fold_left add_creator l (0, [])).
Definition build_grouping (max : option Z) (del : option pubkey) : bytes := (* grouping.rs:177-192 *)
  le_enc 8 0 ++ le_enc 8 (match max with Some m => m | None => 0 end)
    ++ match del with Some k => pk_bytes k | None => zero32 end.
Definition build_royalties (bp : Z) (f : form) : bytes := le_enc 8 bp ++ build f. (* royalties.rs:91-99 *)
Definition build_manager (d : delegate) : bytes := del_addr d ++ [del_roles d].  (* manager.rs:69-74 *)
Definition build_proxy (prog : pubkey) (seeds : bytes) (bump : byte) (auth : option pubkey) : bytes :=
  pk_bytes prog ++ seeds ++ [bump] ++ match auth with Some k => pk_bytes k | None => zero32 end. (* proxy.rs:129-149 *)
Inductive typed_val : Set := TText (s : bytes) | TNumber (n : Z) | TBool (b : bool).
Definition enc_typed (v : typed_val) : bytes :=                          (* properties.rs:315-351 *)
  match v with
  | TText s => x00 :: enc_pstr s
  | TNumber n => x01 :: le_enc 8 n
  | TBool b => [x02; bool_byte b]
  end.
Definition build_properties (l : list (bytes * typed_val)) : bytes :=    (* properties.rs:426-439 *)
  concat (map (fun p => enc_pstr (fst p) ++ enc_typed (snd p)) l).
