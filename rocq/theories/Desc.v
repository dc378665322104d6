(** Interface descriptions: the language of the files in /repo/idls and what data they
    describe.

    idls/asset-program.codama.json is the description that is embedded in the asset
    program (programs/asset/program/build.rs:19-38, src/lib.rs:19) and from which the
    clients are generated (configs/kinobi-asset.cjs).  The nodes are those of Codama
    (kinobi) 0.x, which is not part of /repo; their meaning assumed here is that of the
    serializers kinobi generates for them.  The other files in idls/ are written by
    shank; kinobi reads their types as the nodes given here: [string] and [bytes] have
    a u32 in front, [option] a u8, [vec] a u32. *)
From Verif Require Import Base State World Borsh.
From Coq Require Import Strings.Byte Strings.String.

(** The type nodes that occur.  Numbers are little-endian and take the given bytes. *)
Inductive cty : Type :=
| CNum (n : nat)                                        (* numberTypeNode *)
| CBool                                                 (* booleanTypeNode of a u8 *)
| CKey                                                  (* publicKeyTypeNode *)
| CBytes                                                (* bytesTypeNode *)
| CStr                                                  (* stringTypeNode, utf8 *)
| CSized (n : nat) (t : cty)                            (* sizePrefixTypeNode *)
| CFixed (n : nat) (t : cty)                            (* fixedSizeTypeNode *)
| COpt (t : cty)                                        (* optionTypeNode with a u8 *)
| CVec (n : nat) (t : cty)                              (* arrayTypeNode, prefixedCountNode *)
| CRest (t : cty)                                       (* arrayTypeNode, remainderCountNode *)
| CArr (n : nat) (t : cty)                              (* arrayTypeNode, fixedCountNode *)
| CLink (s : string)                                    (* definedTypeLinkNode *)
| CHook (s : string)                                    (* definedTypeLinkNode, importFrom hooked *)
| CStruct (l : list (string * cty))                     (* structTypeNode *)
| CEnum (l : list (string * list (string * cty))).      (* enumTypeNode of a u8; the fields of each variant *)
Definition cdefs := list (string * cty).

(** Values: the fields of a record and of a variant in order. *)
Inductive cval : Type :=
| VNum (z : Z) | VBool (b : bool) | VRaw (b : bytes) | VNone | VSome (v : cval)
| VSeq (l : list cval) | VRec (l : list cval) | VVar (s : string) (l : list cval).

Definition cnum (n : nat) (z : Z) : option bytes :=
  if (0 <=? z) && (z <? 256 ^ Z.of_nat n) then Some (le_enc n z) else None.
Fixpoint cseq (l : list (option bytes)) : option bytes :=
  match l with
  | [] => Some []
  | Some a :: r => match cseq r with Some b => Some (a ++ b) | None => None end
  | None :: _ => None
  end.
Fixpoint cfind {A} (l : list (string * A)) (s : string) : option A :=
  match l with [] => None | (x, a) :: r => if String.eqb x s then Some a else cfind r s end.
(** the variant of a name, with its position *)
Fixpoint cplace {A} (l : list (string * A)) (n : Z) (s : string) : option (Z * A) :=
  match l with [] => None | (x, a) :: r => if String.eqb x s then Some (n, a) else cplace r (n + 1) s end.

(** The bytes of a value of a type; [None]: there are none.  [hooks] are the types the
    description leaves to code; [fuel] bounds the depth of the type. *)
Fixpoint cenc (fuel : nat) (hooks defs : cdefs) (t : cty) (v : cval) {struct fuel} : option bytes :=
  match fuel with
  | O => None
  | S f =>
      let enc := cenc f hooks defs in
      let fields := fun (ts : list (string * cty)) (vs : list cval) =>
        if Nat.eqb (List.length ts) (List.length vs) then cseq (map (fun p => enc (snd (fst p)) (snd p)) (combine ts vs)) else None in
      match t, v with
      | CNum n, VNum z => cnum n z
      | CBool, VBool b => Some [bool_byte b]
      | CKey, VRaw b => if Nat.eqb (List.length b) 32 then Some b else None
      | CBytes, VRaw b => Some b
      | CStr, VRaw b => if utf8 b then Some b else None
      | CSized n t, v => match enc t v with Some b => cseq [cnum n (zlen b); Some b] | None => None end
      | CFixed n t, v => match enc t v with Some b => Some (firstn n (b ++ repeat x00 n)) | None => None end
      | COpt t, VNone => Some [x00]
      | COpt t, VSome v => cseq [Some [x01]; enc t v]
      | CVec n t, VSeq l => cseq [cnum n (zlen l); cseq (map (enc t) l)]
      | CRest t, VSeq l => cseq (map (enc t) l)
      | CArr n t, VSeq l => if Nat.eqb (List.length l) n then cseq (map (enc t) l) else None
      | CLink s, v => match cfind defs s with Some t => enc t v | None => None end
      | CHook s, v => match cfind hooks s with Some t => enc t v | None => None end
      | CStruct ts, VRec vs => fields ts vs
      | CEnum l, VVar s vs => match cplace l 0 s with Some (n, ts) => cseq [cnum 1 n; fields ts vs] | None => None end
      | _, _ => None
      end
  end.
(** deeper than any type of the descriptions *)
Definition DEPTH : nat := 10.

(** instructionAccountNode: isWritable, isSigner, isOptional *)
Inductive csig : Set := Signs | Looks | Either.
Record cacc : Type := mkAcc { ca_name : string; ca_writable : bool; ca_signer : csig; ca_optional : bool }.
(** instructionNode: the discriminator is a u8 in front of the arguments; account and
    argument names are kept, documentation and default values are not *)
Record cinstr : Type := mkCInstr { ci_name : string; ci_disc : Z; ci_accounts : list cacc; ci_args : list (string * cty) }.
Record cprog : Type := mkCProg { cp_instrs : list cinstr; cp_types : cdefs; cp_errors : list (Z * string) }.

Definition cinstr_of (p : cprog) (s : string) : option cinstr := cfind (map (fun i => (ci_name i, i)) (cp_instrs p)) s.
(** the data of an instruction with its arguments, in order *)
Definition cdata (hooks : cdefs) (p : cprog) (s : string) (args : list cval) : option bytes :=
  match cinstr_of p s with
  | None => None
  | Some i => cseq [cnum 1 (ci_disc i); cenc DEPTH hooks (cp_types p) (CStruct (ci_args i)) (VRec args)]
  end.
(** its accounts: for each the key and, where the description leaves it open, whether it
    signs.  An optional account left out is the program's ID ([optionalAccountStrategy:
    "programId"]; kinobi reads shank files so too unless they say otherwise). *)
Definition cmeta (prog : pubkey) (a : cacc) (g : option (pubkey * bool)) : option ainfo :=
  match g with
  | Some (k, s) => Some (mkInfo k (match ca_signer a with Signs => true | Looks => false | Either => s end) (ca_writable a))
  | None => if ca_optional a then Some (mkInfo prog false false) else None
  end.
Fixpoint call_some {A} (l : list (option A)) : option (list A) :=
  match l with [] => Some [] | Some a :: r => option_map (cons a) (call_some r) | None :: _ => None end.
Definition cmetas (p : cprog) (s : string) (prog : pubkey) (given : list (option (pubkey * bool))) : option (list ainfo) :=
  match cinstr_of p s with
  | None => None
  | Some i => if Nat.eqb (List.length (ci_accounts i)) (List.length given)
              then call_some (map (fun q => cmeta prog (fst q) (snd q)) (combine (ci_accounts i) given)) else None
  end.
