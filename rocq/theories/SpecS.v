(** Specification: the registry of assets the program keeps, and the steps it may
    take, without any bytes of accounts.  Payloads of extensions are bytes. *)
From Verif Require Import Base State Layout Constr Ext World Proc Spec SpecB SpecC SpecE SpecF SpecH SpecG SpecW.
From Coq Require Import Strings.Byte.

(** what a delegate may do *)
Record rights : Set := mkRights { ri_transfer : bool; ri_lock : bool; ri_burn : bool }.
Record asset : Set := mkAsset {
  as_owner : bytes; as_group : option bytes; as_authority : bytes; as_delegate : option (bytes * rights);
  as_locked : bool; as_standard : byte; as_mutable : bool; as_name : bytes; as_exts : list (ext_type * bytes)
}.
Definition registry : Type := pubkey -> option asset.

(** ** Reading a world as a registry *)
Definition key_opt (b : bytes) : option bytes := if list_eq_dec Byte.byte_eq_dec b no_key then None else Some b.
Definition rights_of (m : byte) : rights :=
  mkRights (N.testbit (Byte.to_N m) 0) (N.testbit (Byte.to_N m) 1) (N.testbit (Byte.to_N m) 2).
Definition same_byte (a b : byte) : bool := if Byte.byte_eq_dec a b then true else false.
Definition view (d : bytes) (L : list (ext_type * bytes)) : asset :=
  mkAsset (s_owner d) (key_opt (s_group d)) (s_authority d)
    (match key_opt (s_delegate d) with Some k => Some (k, rights_of (s_roles d)) | None => None end)
    (same_byte (s_state d) x01) (s_standard d) (negb (same_byte (s_mutable d) x00)) (s_name d) L.
(** the bytes of an account are those of the asset: no other bits among the roles
    than the three, well-formed extensions, then zeros *)
Definition shows (d : bytes) (v : asset) : Prop :=
  initialized d /\ Z.of_N (Byte.to_N (s_roles d)) < 8 /\ exists l, tidy d l /\ v = view d (ext_list l).
Definition pictures (p : pubkey) (w : world) (R : registry) : Prop :=
  forall k, match R k with Some v => asset_of p w k /\ shows (data (w k)) v | None => ~ asset_of p w k end.

(** ** Changing an asset *)
Definition with_owner (o : bytes) (v : asset) : asset :=
  mkAsset o (as_group v) (as_authority v) (as_delegate v) (as_locked v) (as_standard v) (as_mutable v) (as_name v) (as_exts v).
Definition with_group (g : option bytes) (v : asset) : asset :=
  mkAsset (as_owner v) g (as_authority v) (as_delegate v) (as_locked v) (as_standard v) (as_mutable v) (as_name v) (as_exts v).
Definition with_authority (a : bytes) (v : asset) : asset :=
  mkAsset (as_owner v) (as_group v) a (as_delegate v) (as_locked v) (as_standard v) (as_mutable v) (as_name v) (as_exts v).
Definition with_delegate (x : option (bytes * rights)) (v : asset) : asset :=
  mkAsset (as_owner v) (as_group v) (as_authority v) x (as_locked v) (as_standard v) (as_mutable v) (as_name v) (as_exts v).
Definition with_lock (b : bool) (v : asset) : asset :=
  mkAsset (as_owner v) (as_group v) (as_authority v) (as_delegate v) b (as_standard v) (as_mutable v) (as_name v) (as_exts v).
Definition with_face (n : bytes) (m : bool) (v : asset) : asset :=
  mkAsset (as_owner v) (as_group v) (as_authority v) (as_delegate v) (as_locked v) (as_standard v) m n (as_exts v).
Definition with_exts (L : list (ext_type * bytes)) (v : asset) : asset :=
  mkAsset (as_owner v) (as_group v) (as_authority v) (as_delegate v) (as_locked v) (as_standard v) (as_mutable v) (as_name v) L.

(** roles named in a request *)
Definition same_role (a b : role) : bool :=
  match a, b with RNone, RNone | RTransfer, RTransfer | RLock, RLock | RBurn, RBurn => true | _, _ => false end.
Definition asked (q : delegate_input) : rights :=
  match q with
  | DAll => mkRights true true true
  | DSome l => mkRights (existsb (same_role RTransfer) l) (existsb (same_role RLock) l) (existsb (same_role RBurn) l)
  end.
Definition grant (a b : rights) : rights :=
  mkRights (ri_transfer a || ri_transfer b) (ri_lock a || ri_lock b) (ri_burn a || ri_burn b).
Definition drop (a b : rights) : rights :=
  mkRights (ri_transfer a && negb (ri_transfer b)) (ri_lock a && negb (ri_lock b)) (ri_burn a && negb (ri_burn b)).
Definition no_rights (a : rights) : bool := negb (ri_transfer a || ri_lock a || ri_burn a).
(** the delegate after Approve: rights are added if it is the delegate already *)
Definition approved (v : asset) (d : bytes) (q : delegate_input) : option (bytes * rights) :=
  match key_opt d with
  | None => None
  | Some d => Some (d, match as_delegate v with
                       | Some (k, r) => if list_eq_dec Byte.byte_eq_dec k d then grant r (asked q) else asked q
                       | None => asked q
                       end)
  end.
(** the delegate after Revoke: gone with its last right *)
Definition revoked (v : asset) (q : delegate_input) : option (bytes * rights) :=
  match q, as_delegate v with
  | DAll, _ | _, None => None
  | DSome _, Some (k, r) => if no_rights (drop r (asked q)) then None else Some (k, drop r (asked q))
  end.
(** a group with [n] members *)
Definition grown (n : Z) (b : bytes) (u : asset) : asset := with_exts (replaced XGrouping (with_size n b) (as_exts u)) u.

(** a new asset: no delegate, unlocked *)
Definition newborn (m : metadata_input) (o auth : bytes) (g : option bytes) (L : list (ext_type * bytes)) : asset :=
  mkAsset o g auth None false (standard_code (m_standard m)) (m_mutable m) (name_field (m_name m)) L.
(** its extensions [L]: those put into the account before, [L0], then those of the
    request, validated; a manager exactly for managed, a proxy exactly for proxied *)
Definition birth (e : env) (m : metadata_input) (auth : bytes) (a : pubkey) (L0 L : list (ext_type * bytes)) : Prop :=
  Forall2 (fun x y => fst y = fst x /\ fresh_payload (fst x) (Some auth) (snd x) (snd y) /\ valid_new (fst y) (snd y))
    (L0 ++ map (fun x => (x_type x, given x)) (inline m)) L /\
  (m_standard m = Managed <-> In XManager (map fst L)) /\
  (m_standard m = Proxied -> exists b, lookup XProxy L = Some b /\ proxy_derives e b a) /\
  (m_standard m <> Proxied -> lookup XProxy L = None).

(** ** Rights *)
Definition right (r : rights) (x : role) : bool :=
  match x with RTransfer => ri_transfer r | RLock => ri_lock r | RBurn => ri_burn r | RNone => false end.
(** the delegate with a right: a manager extension replaces the holder's delegate *)
Definition deputy (v : asset) (k : pubkey) (r : role) : Prop :=
  match lookup XManager (as_exts v) with
  | Some b => manager_is b k r
  | None => exists x, as_delegate v = Some (pk_bytes k, x) /\ right x r = true
  end.
Definition entitled (v : asset) (k : pubkey) (r : role) : Prop := as_owner v = pk_bytes k \/ deputy v k r.
Definition lockable (v : asset) (k : pubkey) : Prop :=
  deputy v k RLock \/ (as_delegate v = None /\ as_owner v = pk_bytes k).
Definition governs (u : asset) (b : bytes) (k : pubkey) : Prop :=
  as_authority u = pk_bytes k \/ (gr_delegate b <> no_key /\ gr_delegate b = pk_bytes k).

(** ** One step *)
Section Step.
Variables (e : env) (w : world) (infos : list ainfo) (R : registry).
(** the first account; a proxied asset signs everything done to it *)
Definition known (a : pubkey) (v : asset) : Prop :=
  arg infos 0 a /\ R a = Some v /\ (as_standard v = x03 -> signed infos a).
Definition unlocked : Prop := forall x v, In x (passed infos) -> R (ai_key x) = Some v -> as_locked v = false.
Definition same (R' : registry) : Prop := forall k, R' k = R k.
Definition sets (a : pubkey) (o : option asset) (R' : registry) : Prop := R' a = o /\ forall k, k <> a -> R' k = R k.
Definition sets2 (a : pubkey) (o : option asset) (g : pubkey) (u : option asset) (R' : registry) : Prop :=
  R' a = o /\ R' g = u /\ forall k, k <> a -> k <> g -> R' k = R k.
(** the extensions put into an account that is not an asset yet *)
Definition staged (a : pubkey) (L0 : list (ext_type * bytes)) : Prop := exists l n, building w a l n /\ ext_list l = L0.
(** the authority of a mutable asset signs *)
Definition commands (a : pubkey) (v : asset) (auth : pubkey) : Prop :=
  known a v /\ arg infos 1 auth /\ signed infos auth /\ as_authority v = pk_bytes auth /\ as_mutable v = true.
(** the group [g] takes in assets of authority [auth] *)
Definition takes (g : pubkey) (u : asset) (b : bytes) (s : pubkey) (auth : bytes) : Prop :=
  R g = Some u /\ as_authority u = auth /\ lookup XGrouping (as_exts u) = Some b /\ governs u b s /\ signed infos s /\
  (gr_max b = 0 \/ gr_size b < gr_max b).
(** what the royalties found, own or the group's, have to say *)
Definition royalties (v : asset) (a s r : pubkey) : Prop :=
  match lookup XRoyalties (as_exts v), as_group v with
  | Some b, _ => permits e w a s r b
  | None, None => True
  | None, Some gk => exists g u, gk = pk_bytes g /\ arg infos 3 g /\ g <> e_prog e /\ g <> a /\ R g = Some u /\
      forall b, lookup XRoyalties (as_exts u) = Some b -> permits e w a s r b
  end.

Inductive act : instr -> registry -> Prop :=
| act_approve a v o d q R' : known a v -> unlocked -> arg infos 1 o -> arg infos 2 d -> signed infos o -> as_owner v = pk_bytes o ->
    sets a (Some (with_delegate (approved v (pk_bytes d) q) v)) R' -> act (IApprove q) R'
| act_revoke a v s q R' : known a v -> unlocked -> arg infos 1 s -> signed infos s ->
    as_owner v = pk_bytes s \/ (exists r, as_delegate v = Some (pk_bytes s, r)) ->
    sets a (Some (with_delegate (revoked v q) v)) R' -> act (IRevoke q) R'
| act_lock a v s R' : known a v -> unlocked -> arg infos 1 s -> signed infos s -> lockable v s ->
    sets a (Some (with_lock true v)) R' -> act ILock R'
| act_unlock a v s R' : known a v -> arg infos 1 s -> signed infos s -> lockable v s ->
    sets a (Some (with_lock false v)) R' -> act IUnlock R'
| act_keep a v s r R' : known a v -> unlocked -> arg infos 1 s -> arg infos 2 r -> signed infos s -> entitled v s RTransfer ->
    as_standard v <> x02 -> as_owner v = pk_bytes r ->
    (forall b, lookup XRoyalties (as_exts v) = Some b -> permits e w a s r b) -> same R' -> act ITransfer R'
| act_transfer a v s r R' : known a v -> unlocked -> arg infos 1 s -> arg infos 2 r -> signed infos s -> entitled v s RTransfer ->
    as_standard v <> x02 -> as_owner v <> pk_bytes r -> royalties v a s r ->
    sets a (Some (with_owner (pk_bytes r) (with_delegate None v))) R' -> act ITransfer R'
| act_burn a v s R' : known a v -> unlocked -> arg infos 1 s -> signed infos s -> entitled v s RBurn ->
    (forall b, lookup XGrouping (as_exts v) = Some b -> gr_size b = 0) -> as_group v = None ->
    sets a None R' -> act IBurn R'
| act_burn_member a v s g u b R' : known a v -> unlocked -> arg infos 1 s -> signed infos s -> entitled v s RBurn ->
    (forall b, lookup XGrouping (as_exts v) = Some b -> gr_size b = 0) ->
    as_group v = Some (pk_bytes g) -> arg infos 3 g -> g <> e_prog e -> g <> a -> R g = Some u ->
    lookup XGrouping (as_exts u) = Some b -> 1 <= gr_size b ->
    sets2 a None g (Some (grown (gr_size b - 1) b u)) R' -> act IBurn R'
| act_handover a v auth n R' : commands a v auth -> arg infos 2 n -> signed infos n ->
    sets a (Some (with_authority (pk_bytes n) v)) R' -> act IHandover R'
| act_join a v g u b s R' : known a v -> arg infos 1 g -> arg infos 2 s -> g <> a -> as_group v = None -> takes g u b s (as_authority v) ->
    sets2 a (Some (with_group (key_opt (pk_bytes g)) v)) g (Some (grown (gr_size b + 1) b u)) R' -> act IGroup R'
| act_leave a v g u b s R' : known a v -> arg infos 1 g -> arg infos 2 s -> signed infos s -> g <> a ->
    as_group v = key_opt (pk_bytes g) -> R g = Some u -> lookup XGrouping (as_exts u) = Some b -> governs u b s -> (g <> pk_zero -> 1 <= gr_size b) ->
    sets2 a (Some (with_group None v)) g (Some (grown (gr_size b - 1) b u)) R' -> act IUngroup R'
| act_verify (y : bool) a v c b b' R' : known a v -> arg infos 1 c -> signed infos c ->
    lookup XCreators (as_exts v) = Some b -> set_flags y (pk_bytes c) b b' ->
    sets a (Some (with_exts (replaced XCreators b' (as_exts v)) v)) R' -> act (if y then IVerify else IUnverify) R'
| act_update a v auth q L R' : commands a v auth ->
    match u_ext q with
    | None => L = as_exts v
    | Some x => exists given b, x_data x = Some given /\ x_length x = zlen given /\
        stored (x_type x) (pk_bytes auth) (lookup (x_type x) (as_exts v)) given b /\ L = put_ext (x_type x) b (as_exts v)
    end ->
    sets a (Some (with_exts L (with_face (match u_name q with Some n => name_field n | None => as_name v end)
                                         (match u_mutable q with Some m => m | None => as_mutable v end) v))) R' -> act (IUpdate q) R'
| act_remove a v auth t L b R' : commands a v auth -> t <> XManager -> t <> XProxy -> (t = XGrouping -> gr_size b = 0) ->
    as_exts v = L ++ [(t, b)] -> lookup t L = None ->
    sets a (Some (with_exts L v)) R' -> act (IRemove t) R'
| act_resize a v auth s R' : commands a v auth -> same R' -> act (IResize s) R'
| act_close a R' : arg infos 0 a -> R a = None -> signed infos a -> same R' -> act IClose R'
| act_allocate a x R' : arg infos 0 a -> R a = None -> signed infos a -> same R' -> act (IAllocate x) R'
| act_write a x R' : arg infos 0 a -> R a = None -> signed infos a -> same R' -> act (IWrite x) R'
| act_create a auth o m L0 L R' : arg infos 0 a -> arg infos 1 auth -> arg infos 2 o -> R a = None -> signed infos a ->
    staged a L0 -> birth e m (pk_bytes auth) a L0 L -> arg infos 3 (e_prog e) ->
    sets a (Some (newborn m (pk_bytes o) (pk_bytes auth) None L)) R' -> act (ICreate m) R'
| act_create_member a auth o m L0 L g u b s R' : arg infos 0 a -> arg infos 1 auth -> arg infos 2 o -> R a = None -> signed infos a ->
    staged a L0 -> birth e m (pk_bytes auth) a L0 L -> arg infos 3 g -> g <> e_prog e -> g <> a ->
    (arg infos 4 (e_prog e) /\ s = auth \/ arg infos 4 s /\ s <> e_prog e) -> takes g u b s (pk_bytes auth) ->
    sets2 a (Some (newborn m (pk_bytes o) (pk_bytes auth) (key_opt (pk_bytes g)) L)) g (Some (grown (gr_size b + 1) b u)) R' -> act (ICreate m) R'.

(** ** What else a request needs: accounts marked writable, none left out, payloads
    the program can parse, and somebody to pay the rent or to receive it *)
Definition well_placed (i : instr) : Prop :=
  plain_accounts e infos w /\ (forall a, arg infos 0 a -> writable infos a) /\
  match i with
  | IApprove _ | IRevoke _ | ILock | IUnlock | IHandover | IVerify | IUnverify => True
  | IGroup | IUngroup => forall g, arg infos 1 g -> writable infos g
  | ITransfer => exists k, arg infos 3 k
  | IBurn => (exists g, arg infos 3 g /\ writable infos g) /\
      forall a s, arg infos 0 a -> arg infos 1 s -> exists r, arg infos 2 r /\
        ((r = e_prog e /\ can_empty infos w a s) \/ (r <> e_prog e /\ can_empty infos w a r))
  | IClose => exists d, arg infos 1 d /\ forall a, arg infos 0 a ->
      acct_owner (w a) = e_prog e /\ (data (w a) = [] \/ s_disc (data (w a)) = x00) /\ can_empty infos w a d
  | IResize s => exists payer sysp, arg infos 2 payer /\ optional e infos 3 sysp /\ forall a, arg infos 0 a ->
      match s with
      | Trim => forall size, 168 <= size <= zlen (data (w a)) ->
          can_shrink e infos w a payer size /\ (size = zlen (data (w a)) -> can_grow e infos w a (Some payer) sysp size)
      | Extend v => 0 <= v <= 65535 /\ can_grow e infos w a (Some payer) sysp (zlen (data (w a)) + v)
      end
  | IRemove t => exists og r, optional e infos 2 og /\ arg infos 3 r /\ forall a, arg infos 0 a ->
      (forall v b, R a = Some v -> lookup t (as_exts v) = Some b -> b <> []) /\
      forall size, 168 <= size <= zlen (data (w a)) -> can_shrink e infos w a r size
  | IUpdate q => exists og payer sysp, arg infos 2 (e_prog e) /\ optional e infos 3 og /\ optional e infos 4 payer /\ optional e infos 5 sysp /\
      e_heap_al e mod 8 = 0 /\ forall a v, arg infos 0 a -> R a = Some v -> (length (as_exts v) < e_fuel e)%nat /\
      forall x, u_ext q = Some x -> ext_arg x /\ fits (x_type x) (lookup (x_type x) (as_exts v)) (given x) /\
        forall hd l tl, layout (data (w a)) hd l tl -> ext_list l = as_exts v -> room_ok e infos w a payer sysp q l tl (x_type x) (x_length x)
  | IAllocate x => ext_arg x /\ zlen (given x) <= x_length x /\ exists payer sysp, optional e infos 1 payer /\ optional e infos 2 sysp /\
      forall a, arg infos 0 a -> exists l n, building w a l n /\ lookup (x_type x) (ext_list l) = None /\
        (data (w a) = [] -> can_open e infos w a payer sysp (new_end l x)) /\
        (data (w a) <> [] -> acct_owner (w a) = e_prog e /\ s_disc (data (w a)) = x00 /\ can_size e infos w a payer sysp (new_end l x))
  | IWrite x => w_overwrite x = false /\ arg infos 2 pk_zero /\ exists payer, arg infos 1 payer /\ signed infos payer /\
      forall a, arg infos 0 a -> acct_owner (w a) = e_prog e /\ s_disc (data (w a)) = x00 /\ exists l t len bs,
        partial_account (data (w a)) (repeat x00 168) l t len bs /\ zlen bs < len /\ zlen bs + zlen (w_bytes x) <= len /\
        can_grow e infos w a (Some payer) (Some pk_zero) (part_end l len (zlen bs + zlen (w_bytes x))) /\
        (zlen bs + zlen (w_bytes x) = len -> acceptable t (bs ++ w_bytes x))
  | ICreate m => Forall ext_arg (inline m) /\ Forall (fun x => zlen (given x) = x_length x) (inline m) /\ NoDup (map x_type (inline m)) /\
      (forall g, arg infos 3 g -> g <> e_prog e -> writable infos g) /\
      exists oga payer sysp, optional e infos 4 oga /\ optional e infos 5 payer /\ optional e infos 6 sysp /\
      forall a, arg infos 0 a -> exists l n, building w a l n /\ (data (w a) = [] \/ sect_size (inline_blks (inline m)) <= n) /\
        Forall (fun x => lookup (x_type x) (ext_list l) = None) (inline m) /\
        Forall (fun x => acceptable (fst x) (snd x)) (ext_list l ++ map (fun x => (x_type x, given x)) (inline m)) /\
        (data (w a) = [] -> can_open e infos w a payer sysp (168 + sect_size (inline_blks (inline m)))) /\
        (data (w a) <> [] -> acct_owner (w a) = e_prog e /\ s_disc (data (w a)) = x00)
  end.
End Step.
(** payloads the program can read *)
Definition readable (v : asset) : Prop :=
  (forall b, lookup XManager (as_exts v) = Some b -> (33 <= length b)%nat) /\
  (forall b, lookup XGrouping (as_exts v) = Some b -> (16 <= length b <= 48)%nat) /\
  (forall b, lookup XRoyalties (as_exts v) = Some b -> exists bp f rest, b = build_royalties bp f ++ rest /\ zlen (build f) <= u32_max).

(** Histories of a registry: steps of the program [p]; nothing else changes it. *)
Inductive evolves (p : pubkey) : registry -> registry -> Prop :=
| ev_start R R' : (forall k, R' k = R k) -> evolves p R R'
| ev_step R R1 R2 e w infos i : evolves p R R1 -> e_prog e = p -> pictures p w R1 -> act e w infos R1 i R2 -> evolves p R R2.
