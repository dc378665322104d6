(** Specification vocabulary for programs that call the asset program. *)
From Verif Require Import Base State Layout Constr Ext World Proc Borsh Proxy Spec SpecB SpecH SpecI.
From Coq Require Import Strings.Byte.

(** accounts of the calling program's instruction, at any position *)
Definition mentions (infos : list ainfo) (k : pubkey) : Prop := exists i, In i infos /\ ai_key i = k.
Definition signs (infos : list ainfo) (k : pubkey) : Prop := exists i, In i infos /\ ai_key i = k /\ ai_signer i = true.
Definition writes (infos : list ainfo) (k : pubkey) : Prop := exists i, In i infos /\ ai_key i = k /\ ai_writable i = true.
(** [k] is an address derived from program [me] *)
Definition derived (e : env) (me k : pubkey) : Prop := exists seeds bump, e_cpa e seeds bump (pk_bytes me) = Some k.
(** a proxy payload (97 bytes) whose seeds and bump give [k] for program [me] *)
Definition proxies (e : env) (me : pubkey) (b : bytes) (k : pubkey) : Prop :=
  length b = 97%nat /\ e_cpa e (sub b 32 32) (nth 64 b x00) (pk_bytes me) = Some k.
(** no account of the list gained more than 10 KiB *)
Definition bounded_growth (infos : list ainfo) (w w' : world) : Prop :=
  forall i, In i infos -> zlen (data (w' (ai_key i))) <= zlen (data (w (ai_key i))) + 10240.
(** the same accounts, the first one signing *)
Definition first_signs (infos : list ainfo) : list ainfo :=
  match infos with [] => [] | i :: r => mkInfo (ai_key i) true (ai_writable i) :: r end.

(** An instruction of the asset program sent by program [me]: it adds nothing to
    the privileges [me] was given but signatures of its own derived addresses. *)
Definition within_rights (e : env) (me : pubkey) (infos metas : list ainfo) : Prop :=
  forall m, In m metas -> mentions infos (ai_key m) /\
    (ai_signer m = true -> signs infos (ai_key m) \/ derived e me (ai_key m)) /\
    (ai_writable m = true -> writes infos (ai_key m)).
(** From [w] to [w'] by such instructions. *)
Inductive calls (e : env) (me : pubkey) (infos : list ainfo) : world -> world -> Prop :=
| calls_none w : calls e me infos w w
| calls_one w w1 metas i w2 : calls e me infos w w1 -> within_rights e me infos metas -> instr_ok i ->
    process (in_cpi e) metas w1 i = Ok w2 -> calls e me infos w w2.

(** ** The proxy program's transfer counter *)
(** decimal digits of a natural number, most significant first *)
Inductive numeral : bytes -> Z -> Prop :=
| num_digit d : 0 <= d <= 9 -> numeral [z2b (48 + d)] d
| num_more s n d : numeral s n -> 0 <= d <= 9 -> numeral (s ++ [z2b (48 + d)]) (10 * n + d).
(** blanks, a minus sign for negative numbers, digits *)
Definition shows (s : bytes) (n : Z) : Prop :=
  exists k ds, (0 <= n /\ s = repeat x20 k ++ ds /\ numeral ds n) \/
               (n <= 0 /\ s = repeat x20 k ++ x2d :: ds /\ numeral ds (- n)).
(** white space *)
Definition blank (b : byte) : Prop := In b [x20; x09; x0a; x0b; x0c; x0d].
(** what the program takes a text for: white space on either side, a sign or none,
    digits; a 64-bit number *)
Definition reads_as (s : bytes) (n : Z) : Prop :=
  - 9223372036854775808 <= n <= 9223372036854775807 /\
  exists a m c, Forall blank a /\ Forall blank c /\ s = a ++ m ++ c /\
    (numeral m n \/ (exists ds, m = x2b :: ds /\ numeral ds n) \/ exists ds, m = x2d :: ds /\ numeral ds (- n)).
(** one more, in 64 bits *)
Definition next_count (n : Z) : Z := if n =? 9223372036854775807 then - 9223372036854775808 else n + 1.
(** an attributes payload with the single entry "transfers" *)
Definition counter_entry (s : bytes) : bytes :=
  x09 :: [x74; x72; x61; x6e; x73; x66; x65; x72; x73] ++ z2b (zlen s) :: s.
(** the header fields an owner or authority cares about, other than owner and delegate *)
Definition same_terms (d d' : bytes) : Prop :=
  s_disc d' = s_disc d /\ s_state d' = s_state d /\ s_standard d' = s_standard d /\ s_mutable d' = s_mutable d /\
  s_group d' = s_group d /\ s_authority d' = s_authority d /\ s_name d' = s_name d.

(** a number in three columns; a colour: red, green and blue from the first three bytes *)
Definition column (n : Z) (s : bytes) : Prop := shows s n /\ length s = 3%nat.
Definition rgb (h c : bytes) : Prop :=
  exists r g b, column (Z.of_N (Byte.to_N (nth 0 h x00))) r /\ column (Z.of_N (Byte.to_N (nth 1 h x00))) g /\ column (Z.of_N (Byte.to_N (nth 2 h x00))) b /\
    c = r ++ [x2c] ++ g ++ [x2c] ++ b.
(** "000,000,000" *)
Definition black : bytes := [x30; x30; x30; x2c; x30; x30; x30; x2c; x30; x30; x30].
(** the image extension: content type "image/svg+xml" and a document *)
Definition image_entry (doc : bytes) : bytes :=
  x0d :: [x69; x6d; x61; x67; x65; x2f; x73; x76; x67; x2b; x78; x6d; x6c] ++ doc.
(** a properties payload with the single number "last_transferred" *)
Definition stamp_entry (t : Z) : bytes :=
  x10 :: [x6c; x61; x73; x74; x5f; x74; x72; x61; x6e; x73; x66; x65; x72; x72; x65; x64] ++ x01 :: le_enc 8 t.
(** the constant parts of the image are far below the account size limit *)
Definition small_template (pe : penv) : Prop := zlen (pe_before pe) + zlen (pe_after pe) <= 50000.
(** [k] is the program's to sign for on account of the asset's proxy extension [b] *)
Definition signs_or_proxied (e : env) (me : pubkey) (infos : list ainfo) (b : bytes) (k : pubkey) : Prop :=
  signs infos k \/ proxies e me b k.

(** accounts for a Handover through the proxy program in which only [k] signs *)
Definition takeover_accounts (e : env) (asset k : pubkey) : list ainfo :=
  [mkInfo asset false true; mkInfo asset false true; mkInfo k true false; mkInfo (e_prog e) false false].
