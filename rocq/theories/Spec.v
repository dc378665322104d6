(** Specification vocabulary, independent of the functions of the model: what an
    account's bytes mean, who signed, what a well-formed extension section is.
    Only the data types of the model (bytes, accounts, instructions, type numbering)
    are used. *)
From Verif Require Import Base State Layout Constr Ext World Proc.
From Coq Require Import Strings.Byte.

(** ** Header fields, read straight off the bytes *)
Definition sub (d : bytes) (o n : nat) : bytes := firstn n (skipn o d).
Definition s_disc (d : bytes) : byte := nth 0 d x00.
Definition s_state (d : bytes) : byte := nth 1 d x00.
Definition s_standard (d : bytes) : byte := nth 2 d x00.
Definition s_mutable (d : bytes) : byte := nth 3 d x00.
Definition s_owner (d : bytes) : bytes := sub d 4 32.
Definition s_group (d : bytes) : bytes := sub d 36 32.
Definition s_authority (d : bytes) : bytes := sub d 68 32.
Definition s_delegate (d : bytes) : bytes := sub d 100 32.
Definition s_roles (d : bytes) : byte := nth 132 d x00.
Definition s_name (d : bytes) : bytes := sub d 133 35.

Definition initialized (d : bytes) : Prop := (168 <= length d)%nat /\ s_disc d = x01.
Definition locked (d : bytes) : Prop := s_disc d = x01 /\ s_state d = x01.
Definition mutable (d : bytes) : Prop := s_mutable d <> x00.
Definition no_key : bytes := repeat x00 32.

(** [d'] is [d] outside the [n] bytes at [o]. *)
Definition same_except (d d' : bytes) (o n : nat) : Prop :=
  length d' = length d /\
  forall i, (i < o \/ o + n <= i)%nat -> nth i d' x00 = nth i d x00.

(** ** Roles: bit 0 transfer, bit 1 lock, bit 2 burn *)
Definition role_bit (r : role) : option N :=
  match r with RNone => None | RTransfer => Some 0%N | RLock => Some 1%N | RBurn => Some 2%N end.
Definition has_role (mask : byte) (r : role) : Prop :=
  match role_bit r with Some b => N.testbit (Byte.to_N mask) b = true | None => False end.

(** ** Accounts of an instruction; at most seven reach the program *)
Definition passed (infos : list ainfo) : list ainfo := firstn 7 infos.
Definition arg (infos : list ainfo) (i : nat) (k : pubkey) : Prop :=
  exists a, nth_error (passed infos) i = Some a /\ ai_key a = k.
Definition signed (infos : list ainfo) (k : pubkey) : Prop :=
  exists a, In a (passed infos) /\ ai_key a = k /\ ai_signer a = true.
Definition writable (infos : list ainfo) (k : pubkey) : Prop :=
  exists a, In a (passed infos) /\ ai_key a = k /\ ai_writable a = true.

(** ** Locating an extension in arbitrary bytes *)
Definition le32 (d : bytes) (o : Z) : Z := le_dec (sub d (Z.to_nat o) 4).
Inductive locates (d : bytes) (t : ext_type) : Z -> Z -> Prop :=
| loc_here cur : 0 <= cur -> cur + 16 <= zlen d -> le32 d cur = ext_code t -> locates d t cur cur
| loc_next cur r : 0 <= cur -> cur + 16 <= zlen d -> le32 d cur <> ext_code t -> le32 d cur <> 0 ->
    locates d t (le32 d (cur + 8)) r -> locates d t cur r.
(** the payload of the first extension of type [t] *)
Definition has_ext (d : bytes) (t : ext_type) (off : Z) (b : bytes) : Prop :=
  exists cur, locates d t 168 cur /\ off = cur + 16 /\
    off + zlen b <= zlen d /\ zlen b = le32 d (cur + 4) /\ b = sub d (Z.to_nat off) (length b).

(** ** Well-formed extension sections *)
(** One extension as stored: 4+4+4 bytes type, length and end offset, 4 unused
    bytes, payload, padding up to a multiple of eight. *)
Record blk := mkBlk { bk_type : ext_type; bk_data : bytes; bk_unused : bytes; bk_pad : bytes }.
Definition blk_ok (b : blk) : Prop :=
  bk_type b <> XNone /\ length (bk_unused b) = 4%nat /\
  zlen (bk_pad b) < 8 /\ (zlen (bk_data b) + zlen (bk_pad b)) mod 8 = 0.
Definition blk_size (b : blk) : Z := 16 + zlen (bk_data b) + zlen (bk_pad b).
Definition enc_blk (cur : Z) (b : blk) : bytes :=
  le_enc 4 (ext_code (bk_type b)) ++ le_enc 4 (zlen (bk_data b)) ++
  le_enc 4 (cur + blk_size b) ++ bk_unused b ++ bk_data b ++ bk_pad b.
Fixpoint enc_sect (cur : Z) (l : list blk) : bytes :=
  match l with
  | [] => []
  | b :: l' => enc_blk cur b ++ enc_sect (cur + blk_size b) l'
  end.
Fixpoint sect_size (l : list blk) : Z :=
  match l with [] => 0 | b :: l' => blk_size b + sect_size l' end.

(** the block the program writes for a payload: padding and unused word zero *)
Definition blk_of (t : ext_type) (b : bytes) : blk :=
  mkBlk t b (repeat x00 4) (repeat x00 (Z.to_nat ((- zlen b) mod 8))).

(** What a reader sees of it: types and payloads in order. *)
Definition ext_list (l : list blk) : list (ext_type * bytes) :=
  map (fun b => (bk_type b, bk_data b)) l.

(** After the section: nothing, fewer bytes than a header, or a header of type
    None. *)
Definition tail_ok (tl : bytes) : Prop := zlen tl < 16 \/ le32 tl 0 = 0.

(** [d] consists of a 168-byte header, the section for [l] and a tail.  The size
    bound is the runtime's account size limit (10 MiB) rounded up. *)
Definition layout (d : bytes) (hd : bytes) (l : list blk) (tl : bytes) : Prop :=
  d = hd ++ enc_sect 168 l ++ tl /\ zlen hd = 168 /\ Forall blk_ok l /\
  tail_ok tl /\ zlen d < 2147483648.
Definition well_formed (d : bytes) (l : list blk) : Prop := exists hd tl, layout d hd l tl.
(** ... with nothing after the last extension *)
Definition tight (d : bytes) (l : list blk) : Prop := exists hd, layout d hd l [].

(** first payload of a type *)
Fixpoint lookup (t : ext_type) (l : list (ext_type * bytes)) : option bytes :=
  match l with
  | [] => None
  | (t', b) :: l' => if ext_type_eqb t' t then Some b else lookup t l'
  end.

(** ** Payload meanings *)
(** manager: 32 bytes address, one byte of roles (anything after is ignored) *)
Definition key_with_role (addr : bytes) (mask : byte) (k : pubkey) (r : role) : Prop :=
  addr = pk_bytes k /\ has_role mask r.
Definition manager_is (b : bytes) (k : pubkey) (r : role) : Prop :=
  (33 <= length b)%nat /\ key_with_role (sub b 0 32) (nth 32 b x00) k r.
Definition delegate_is (d : bytes) (k : pubkey) (r : role) : Prop :=
  s_delegate d <> no_key /\ key_with_role (s_delegate d) (s_roles d) k r.
(** grouping: size u64, maximum u64 (0 = unlimited), delegate 32 bytes (optional) *)
Definition gr_size (b : bytes) : Z := le_dec (sub b 0 8).
Definition gr_max (b : bytes) : Z := le_dec (sub b 8 8).
Definition gr_delegate (b : bytes) : bytes :=
  if Nat.ltb (length b) 48 then no_key else sub b 16 32.

(** ** Balances *)
Fixpoint total (ks : list pubkey) (w : world) : Z :=
  match ks with [] => 0 | k :: ks' => lamports (w k) + total ks' w end.

(** the runtime's limit on account data *)
Definition sized (w : world) : Prop := forall k, zlen (data (w k)) <= 10485760.

(** ** Who may act on an asset *)
(** in arbitrary bytes: the owner, the manager extension's delegate, or the
    holder's delegate *)
Definition may_act (d : bytes) (k : pubkey) (r : role) : Prop :=
  s_owner d = pk_bytes k \/
  (exists off b, has_ext d XManager off b /\ manager_is b k r) \/
  delegate_is d k r.
(** in a well-formed asset: a manager extension replaces the holder's delegate *)
Definition authorized (d : bytes) (l : list blk) (k : pubkey) (r : role) : Prop :=
  s_owner d = pk_bytes k \/
  match lookup XManager (ext_list l) with
  | Some b => manager_is b k r
  | None => delegate_is d k r
  end.

(** nothing but the data of [k] differs *)
Definition only_data (w w' : world) (k : pubkey) : Prop :=
  (forall k', k' <> k -> w' k' = w k') /\
  lamports (w' k) = lamports (w k) /\ acct_owner (w' k) = acct_owner (w k).

(** who may lock and unlock a well-formed asset: once a delegate is set the
    owner may not *)
Definition may_lock (d : bytes) (l : list blk) (k : pubkey) : Prop :=
  match lookup XManager (ext_list l) with
  | Some b => manager_is b k RLock \/ (s_delegate d = no_key /\ s_owner d = pk_bytes k)
  | None => delegate_is d k RLock \/ (s_delegate d = no_key /\ s_owner d = pk_bytes k)
  end.

(** the access gate: accounts of the program are empty or at least as long as an
    asset header *)
Definition plain_accounts (e : env) (infos : list ainfo) (w : world) : Prop :=
  forall a, In a (passed infos) -> acct_owner (w (ai_key a)) = e_prog e ->
    data (w (ai_key a)) = [] \/ (168 <= length (data (w (ai_key a))))%nat.
Definition none_locked (e : env) (infos : list ainfo) (w : world) : Prop :=
  forall a, In a (passed infos) -> acct_owner (w (ai_key a)) = e_prog e -> ~ locked (data (w (ai_key a))).

(** roles named by an Approve / Revoke argument *)
Definition requested (a : delegate_input) (r : role) : Prop :=
  match a with DAll => r <> RNone | DSome l => In r l /\ r <> RNone end.

(** balances and rent are never negative *)
Definition lam_ok (w : world) : Prop := forall k, 0 <= lamports (w k).
Definition env_ok (e : env) : Prop := forall n, 0 <= e_rent e n.

(** What the runtime makes of an instruction: an error or panic discards every
    change (Solana's transaction semantics, not code of the repository). *)
Definition exec (e : env) (infos : list ainfo) (w : world) (i : instr) : world :=
  match process e infos w i with Ok w' => w' | _ => w end.

(** a sequence of instructions, all of which succeed *)
Fixpoint steps (l : list (env * list ainfo * instr)) (w : world) : res world :=
  match l with
  | [] => Ok w
  | (e, infos, i) :: l' => w1 <- process e infos w i ;; steps l' w1
  end.

(** ** Creators: entries of 34 bytes, address, verified flag, share *)
Definition cr_count (b : bytes) : nat := Nat.div (length b) 34.
Definition cr_addr_at (b : bytes) (i : nat) : bytes := sub b (34 * i) 32.
Definition cr_flag_at (b : bytes) (i : nat) : byte := nth (34 * i + 32) b x00.
Definition cr_share_at (b : bytes) (i : nat) : byte := nth (34 * i + 33) b x00.
(** a non-zero byte counts as verified *)
Definition verified_in (b : bytes) (a : bytes) : Prop :=
  exists i, (i < cr_count b)%nat /\ cr_addr_at b i = a /\ cr_flag_at b i <> x00.
Fixpoint shares (n : nat) (b : bytes) : Z :=
  match n with O => 0 | S n' => shares n' b + Z.of_N (Byte.to_N (cr_share_at b n')) end.

(** ** Accounts under construction *)
(** absent (a fresh header of zeros will precede the extensions), or a section
    followed by [n] zero bytes *)
Definition open_account (d hd : bytes) (l : list blk) (n : Z) : Prop :=
  (d = [] /\ hd = repeat x00 168 /\ l = [] /\ n = 0) \/
  (0 <= n /\ layout d hd l (repeat x00 (Z.to_nat n))).
(** the last extension's payload is not complete: [bs] of [len] bytes are there *)
Definition partial_account (d hd : bytes) (l : list blk) (t : ext_type) (len : Z) (bs : bytes) : Prop :=
  d = hd ++ enc_sect 168 l ++ le_enc 4 (ext_code t) ++ le_enc 4 len ++
      le_enc 4 (168 + sect_size l + 16 + (len + 7) / 8 * 8) ++ repeat x00 4 ++ bs /\
  zlen hd = 168 /\ Forall blk_ok l /\ t <> XNone /\ zlen bs <= len /\
  168 + sect_size l + 16 + len <= 2147483640.
(** the bytes an Allocate argument brings along *)
Definition given (x : ext_input) : bytes := match x_data x with Some b => b | None => [] end.
(** what validation makes of a payload: creators' verified flags are recomputed
    (set exactly for the entry naming [auth]), everything else is kept *)
Definition fresh_payload (t : ext_type) (auth : option bytes) (b b' : bytes) : Prop :=
  length b' = length b /\ (t <> XCreators -> b' = b) /\
  (t = XCreators -> forall i, (i < cr_count b)%nat ->
     cr_addr_at b' i = cr_addr_at b i /\ cr_share_at b' i = cr_share_at b i /\
     (cr_flag_at b' i = x01 <-> auth = Some (cr_addr_at b i)) /\
     (cr_flag_at b' i = x00 <-> auth <> Some (cr_addr_at b i))).
