(** Instruction data: borsh as derived for programs/asset/program/src/instruction.rs.

    borsh itself is not part of /repo; the format assumed (borsh 0.10): integers
    little-endian; [bool] one byte, 0 or 1 and nothing else; [Option] a 0/1 byte and
    the value; [Vec] and [String] a [u32] count and the items, [String] valid UTF-8;
    enums one byte, the index of the variant; structs their fields in order.
    [try_from_slice] fails when bytes are left over. *)
From Verif Require Import Base State Layout Constr Ext World Proc.
From Coq Require Import Strings.Byte.

(** A reader returns the value and the bytes left; [None] is any borsh error. *)
Definition reader (A : Type) := bytes -> option (A * bytes).
Definition rbind {A B} (p : reader A) (k : A -> reader B) : reader B :=
  fun b => match p b with None => None | Some (a, r) => k a r end.
Definition rret {A} (a : A) : reader A := fun b => Some (a, b).
Definition rfail {A} : reader A := fun _ => None.

Definition read_u8 : reader byte := fun b => match b with [] => None | x :: r => Some (x, r) end.
Definition read_uint (n : nat) : reader Z := fun b =>
  if Z.of_nat n <=? zlen b then Some (le_dec (firstn n b), skipn n b) else None.
Definition read_bool : reader bool := rbind read_u8 (fun x =>
  if b2z x =? 0 then rret false else if b2z x =? 1 then rret true else rfail).
Definition read_option {A} (p : reader A) : reader (option A) := rbind read_u8 (fun x =>
  if b2z x =? 0 then rret None else if b2z x =? 1 then rbind p (fun a => rret (Some a)) else rfail).
Definition read_bytes : reader bytes := rbind (read_uint 4) (fun n b =>
  if n <=? zlen b then Some (firstn (Z.to_nat n) b, skipn (Z.to_nat n) b) else None).
(** [fuel]: more than the bytes available; every item takes at least one *)
Fixpoint read_many {A} (fuel : nat) (p : reader A) (n : Z) : reader (list A) := fun b =>
  match fuel with
  | O => None
  | S f => if n =? 0 then Some ([], b)
           else rbind p (fun a => rbind (read_many f p (n - 1)) (fun l => rret (a :: l))) b
  end.
Definition read_vec {A} (p : reader A) : reader (list A) := rbind (read_uint 4) (fun n b => read_many (S (length b)) p n b).

(** String::from_utf8 (std): well-formed UTF-8, Unicode table 3-7 *)
Definition within (lo hi : Z) (b : byte) : bool := (lo <=? b2z b) && (b2z b <=? hi).
Definition cont (b : byte) : bool := within 128 191 b.
Definition second3 (a : byte) (b : byte) : bool :=
  if b2z a =? 224 then within 160 191 b else if b2z a =? 237 then within 128 159 b else cont b.
Definition second4 (a : byte) (b : byte) : bool :=
  if b2z a =? 240 then within 144 191 b else if b2z a =? 244 then within 128 143 b else cont b.
Fixpoint utf8 (b : bytes) : bool :=
  match b with
  | [] => true
  | a :: r =>
      if b2z a <=? 127 then utf8 r
      else match r with
      | [] => false
      | c :: r1 =>
          if within 194 223 a then cont c && utf8 r1
          else match r1 with
          | [] => false
          | d :: r2 =>
              if within 224 239 a then second3 a c && cont d && utf8 r2
              else match r2 with
              | [] => false
              | e :: r3 => within 240 244 a && second4 a c && cont d && cont e && utf8 r3
              end
          end
      end
  end.
Definition read_string : reader bytes := rbind read_bytes (fun s => if utf8 s then rret s else rfail).

(** Standard — state/mod.rs:45-64; DelegateRole — state/delegate.rs:88-97;
    ExtensionType — extensions/mod.rs:200-214 *)
Definition read_standard : reader standard := rbind read_u8 (fun x =>
  if b2z x =? 0 then rret NonFungible else if b2z x =? 1 then rret Managed
  else if b2z x =? 2 then rret Soulbound else if b2z x =? 3 then rret Proxied else rfail).
Definition read_role : reader role := rbind read_u8 (fun x =>
  if b2z x =? 0 then rret RNone else if b2z x =? 1 then rret RTransfer
  else if b2z x =? 2 then rret RLock else if b2z x =? 3 then rret RBurn else rfail).
Definition read_ext_type : reader ext_type := rbind read_u8 (fun x =>
  match ext_of_code (b2z x) with Some t => rret t | None => rfail end).

(** ExtensionInput — instruction.rs:160-172 *)
Definition read_ext_input : reader ext_input :=
  rbind read_ext_type (fun t => rbind (read_uint 4) (fun n => rbind (read_option read_bytes) (fun d => rret (mkExtInput t n d)))).
(** DelegateInput — instruction.rs:137-146 *)
Definition read_delegate_input : reader delegate_input := rbind read_u8 (fun x =>
  if b2z x =? 0 then rret DAll else if b2z x =? 1 then rbind (read_vec read_role) (fun l => rret (DSome l)) else rfail).
(** DataInput — instruction.rs:148-157 *)
Definition read_data_input : reader data_input :=
  rbind read_bool (fun o => rbind read_bytes (fun b => rret (mkDataInput o b))).
(** MetadataInput — instruction.rs:174-189 *)
Definition read_metadata_input : reader metadata_input :=
  rbind read_string (fun n => rbind read_standard (fun s => rbind read_bool (fun m =>
  rbind (read_option (read_vec read_ext_input)) (fun x => rret (mkMetaInput n s m x))))).
(** UpdateInput — instruction.rs:191-205 *)
Definition read_update_input : reader update_input :=
  rbind (read_option read_string) (fun n => rbind (read_option read_bool) (fun m =>
  rbind (read_option read_ext_input) (fun x => rret (mkUpdInput n m x)))).
(** Strategy — instruction.rs:207-217 *)
Definition read_strategy : reader strategy := rbind read_u8 (fun x =>
  if b2z x =? 0 then rret Trim else if b2z x =? 1 then rbind (read_uint 2) (fun v => rret (Extend v)) else rfail).

(** Instruction — instruction.rs:9-126; the variants in order.  (AllocateInput,
    instruction.rs:128-135, has the extension as its only field.) *)
Definition read_instr : reader instr := rbind read_u8 (fun x =>
  match b2z x with
  | 0 => rret IClose
  | 1 => rret IBurn
  | 2 => rbind read_metadata_input (fun m => rret (ICreate m))
  | 3 => rbind read_delegate_input (fun d => rret (IApprove d))
  | 4 => rbind read_ext_input (fun x => rret (IAllocate x))
  | 5 => rret ILock
  | 6 => rbind read_delegate_input (fun d => rret (IRevoke d))
  | 7 => rret ITransfer
  | 8 => rret IUnlock
  | 9 => rret IUnverify
  | 10 => rbind read_update_input (fun u => rret (IUpdate u))
  | 11 => rret IVerify
  | 12 => rbind read_data_input (fun d => rret (IWrite d))
  | 13 => rret IGroup
  | 14 => rret IUngroup
  | 15 => rret IHandover
  | 16 => rbind read_ext_type (fun t => rret (IRemove t))
  | 17 => rbind read_strategy (fun s => rret (IResize s))
  | _ => rfail
  end).
Definition try_from_slice (b : bytes) : option instr :=
  match read_instr b with Some (i, []) => Some i | _ => None end.

(** processor::process_instruction — processor/mod.rs:46-142, entrypoint.rs:10-30:
    decoding first *)
Definition entry (e : env) (infos : list ainfo) (w : world) (b : bytes) : res world :=
  match try_from_slice b with
  | None => Err EInvalidInstructionData
  | Some i => process e infos w i
  end.

(** ** Writing (BorshSerialize), as used by clients *)
Definition write_option {A} (f : A -> bytes) (o : option A) : bytes :=
  match o with None => [x00] | Some a => x01 :: f a end.
Definition write_bytes (b : bytes) : bytes := le_enc 4 (zlen b) ++ b.
Definition write_vec {A} (f : A -> bytes) (l : list A) : bytes := le_enc 4 (zlen l) ++ concat (map f l).
Definition write_role (r : role) : bytes :=
  match r with RNone => [x00] | RTransfer => [x01] | RLock => [x02] | RBurn => [x03] end.
Definition write_ext_type (t : ext_type) : bytes := [z2b (ext_code t)].
Definition write_ext_input (x : ext_input) : bytes :=
  write_ext_type (x_type x) ++ le_enc 4 (x_length x) ++ write_option write_bytes (x_data x).
Definition write_delegate_input (d : delegate_input) : bytes :=
  match d with DAll => [x00] | DSome l => x01 :: write_vec write_role l end.
Definition write_data_input (d : data_input) : bytes := bool_byte (w_overwrite d) :: write_bytes (w_bytes d).
Definition write_metadata_input (m : metadata_input) : bytes :=
  write_bytes (m_name m) ++ [standard_code (m_standard m)] ++ [bool_byte (m_mutable m)] ++
  write_option (write_vec write_ext_input) (m_exts m).
Definition write_update_input (u : update_input) : bytes :=
  write_option write_bytes (u_name u) ++ write_option (fun b => [bool_byte b]) (u_mutable u) ++
  write_option write_ext_input (u_ext u).
Definition write_strategy (s : strategy) : bytes :=
  match s with Trim => [x00] | Extend v => x01 :: le_enc 2 v end.
Definition write_instr (i : instr) : bytes :=
  match i with
  | IClose => [x00] | IBurn => [x01]
  | ICreate m => x02 :: write_metadata_input m
  | IApprove d => x03 :: write_delegate_input d
  | IAllocate x => x04 :: write_ext_input x
  | ILock => [x05]
  | IRevoke d => x06 :: write_delegate_input d
  | ITransfer => [x07] | IUnlock => [x08] | IUnverify => [x09]
  | IUpdate u => x0a :: write_update_input u
  | IVerify => [x0b]
  | IWrite d => x0c :: write_data_input d
  | IGroup => [x0d] | IUngroup => [x0e] | IHandover => [x0f]
  | IRemove t => x10 :: write_ext_type t
  | IResize s => x11 :: write_strategy s
  end.
