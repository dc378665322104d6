(** The cursor loops over the extension section:
    types/src/state/asset.rs:81-237 and types/src/extensions/mod.rs:124-166.

    Every loop reads the header at the cursor and continues at the header's
    boundary.  Fuel: on fixed data the cursor determines the rest of the run
    and every cursor that is read is below [length d], so a loop that makes
    more than [S (length d)] iterations never ends; [Diverge] is therefore
    exactly non-termination. *)
From Verif Require Import Base State.

Definition walk_fuel (d : bytes) : nat := S (length d).

(** Shared by Asset::contains (asset.rs:81-95), Asset::get (101-119),
    Asset::get_mut (125-143) and Asset::get_extension (220-237): find the first
    header of the type; stop at type None; skip anything else (also unknown
    types). *)
Fixpoint find_loop (fuel : nat) (t : ext_type) (d : bytes) (cur : Z)
  : res (option (Z * hdr)) :=
  match fuel with
  | O => Diverge
  | S f =>
      if cur + EXT_LEN <=? zlen d then
        h <- load_hdr d cur ;;
        if h_type h =? ext_code t then Ok (Some (cur, h))
        else if h_type h =? 0 then Ok None
        else find_loop f t d (h_bnd h)
      else Ok None
  end.
Definition find_ext (t : ext_type) (d : bytes) : res (option (Z * hdr)) :=
  find_loop (walk_fuel d) t d ASSET_LEN.

(** Asset::contains — asset.rs:81-95 *)
Definition asset_contains (t : ext_type) (d : bytes) : res bool :=
  r <- find_ext t d ;;
  Ok (match r with Some _ => true | None => false end).

(** Asset::get / get_mut — asset.rs:101-143: location (offset of the payload)
    and payload of the first extension of the type; the slice
    [start..start+length] panics when out of range. *)
Definition asset_get (t : ext_type) (d : bytes) : res (option (Z * bytes)) :=
  r <- find_ext t d ;;
  match r with
  | None => Ok None
  | Some (cur, h) =>
      b <- slice d (cur + EXT_LEN) (cur + EXT_LEN + h_len h) ;;
      Ok (Some (cur + EXT_LEN, b))
  end.

(** Asset::get_extension — asset.rs:220-237 *)
Definition asset_get_extension (t : ext_type) (d : bytes) : res (option (hdr * Z)) :=
  r <- find_ext t d ;;
  Ok (match r with None => None | Some (cur, h) => Some (h, cur + EXT_LEN) end).

(** Asset::get_extensions — asset.rs:153-171 *)
Fixpoint list_loop (fuel : nat) (d : bytes) (cur : Z) : res (list ext_type) :=
  match fuel with
  | O => Diverge
  | S f =>
      if cur + EXT_LEN <=? zlen d then
        h <- load_hdr d cur ;;
        match ext_of_code (h_type h) with
        | Some XNone => Ok []
        | Some t => l <- list_loop f d (h_bnd h) ;; Ok (t :: l)
        | None => list_loop f d (h_bnd h)
        end
      else Ok []
  end.
Definition get_extensions (d : bytes) : res (list ext_type) :=
  list_loop (walk_fuel d) d ASSET_LEN.

(** Asset::first_extension — asset.rs:178-189 *)
Definition first_extension (d : bytes) : res (option (hdr * Z)) :=
  if ASSET_LEN + EXT_LEN <=? zlen d then
    h <- load_hdr d ASSET_LEN ;;
    match ext_of_code (h_type h) with
    | Some XNone => Ok None
    | Some _ => Ok (Some (h, ASSET_LEN + EXT_LEN))
    | None => Ok None
    end
  else Ok None.

(** Asset::last_extension — asset.rs:196-213 *)
Fixpoint last_loop (fuel : nat) (d : bytes) (cur : Z) (last : option (hdr * Z))
  : res (option (hdr * Z)) :=
  match fuel with
  | O => Diverge
  | S f =>
      if cur + EXT_LEN <=? zlen d then
        h <- load_hdr d cur ;;
        match ext_of_code (h_type h) with
        | Some XNone | None => Ok last
        | Some _ => last_loop f d (h_bnd h) (Some (h, cur + EXT_LEN))
        end
      else Ok last
  end.
Definition last_extension (d : bytes) : res (option (hdr * Z)) :=
  last_loop (walk_fuel d) d ASSET_LEN None.

(** Extension::get / get_mut — extensions/mod.rs:124-166, over the extension
    section only ([x] = data[168..]).  The cursor becomes
    [boundary as usize - Asset::LEN], which wraps when boundary < 168
    (overflow checks are off in release builds), and so does [cursor + 16].
    The section starts at offset 168 of the account, hence 8-aligned. *)
Fixpoint sect_loop (fuel : nat) (t : ext_type) (x : bytes) (cur : Z)
  : res (option (Z * bytes)) :=
  match fuel with
  | O => Diverge
  | S f =>
      if (cur + EXT_LEN) mod two64 <=? zlen x then
        h <- load_hdr x cur ;;
        if h_type h =? ext_code t then
          b <- slice x (cur + EXT_LEN) (cur + EXT_LEN + h_len h) ;;
          Ok (Some (cur + EXT_LEN, b))
        else if h_type h =? 0 then Ok None
        else sect_loop f t x ((h_bnd h - ASSET_LEN) mod two64)
      else Ok None
  end.
Definition sect_get (t : ext_type) (x : bytes) : res (option (Z * bytes)) :=
  sect_loop (walk_fuel x) t x 0.
