(** * Validator: /repo/src/validator.rs (without [is_viable], see Valid.v) *)
From Verif Require Import Base Regex CountryId Types Metadata Database.

(** validator.rs:108-142; [number.national] is the only part read. *)
Definition v_length (meta : metadata) (national : str) (kind : ptype) : validation :=
  match ds_get (md_descriptors meta) kind with
  | None => InvalidLength
  | Some desc =>
      let length := as_u16 (blen national) in
      let local := d_possible_local_length desc in
      let possible := match d_possible_length desc with
                      | [] => d_possible_length desc
                      | _ => d_possible_length (ds_general (md_descriptors meta))
                      end in
      match possible with
      | [] => InvalidLength
      | minimum :: _ =>
          if memN length local then IsPossibleLocalOnly
          else if N.eqb length minimum then IsPossible
          else if N.ltb length minimum then TooShort
          else if N.ltb (last possible 0%N) length then VTooLong
          else if memN length possible then IsPossible
          else InvalidLength
      end
  end.

(** [desc.as_ref().map(|d| d.is_match(value)).unwrap_or(false)] *)
Definition od_is_match (d : option descriptor) (value : str) : bool :=
  match d with Some d => d_is_match d value | None => false end.

(** validator.rs:179-309 *)
Definition number_type (meta : metadata) (value : str) : ptype :=
  let ds := md_descriptors meta in
  if negb (d_is_match (ds_general ds) value) then TUnknown
  else if od_is_match (ds_premium_rate ds) value then TPremiumRate
  else if od_is_match (ds_toll_free ds) value then TTollFree
  else if od_is_match (ds_shared_cost ds) value then TSharedCost
  else if od_is_match (ds_voip ds) value then TVoip
  else if od_is_match (ds_personal_number ds) value then TPersonalNumber
  else if od_is_match (ds_pager ds) value then TPager
  else if od_is_match (ds_uan ds) value then TUan
  else if od_is_match (ds_voicemail ds) value then TVoicemail
  else if od_is_match (ds_fixed_line ds) value then
    let src d := option_map (fun d => re_src (d_national_number d)) d in
    if option_eqb str_eqb (src (ds_fixed_line ds)) (src (ds_mobile ds)) then TFixedLineOrMobile
    else if od_is_match (ds_mobile ds) value then TFixedLineOrMobile
    else TFixedLine
  else if od_is_match (ds_mobile ds) value then TMobile
  else TUnknown.

(** [Option<Either<country::Id, u16>>] *)
Inductive msource := SLeft (i : id) | SRight (code : N).

(** validator.rs:162-174: the loop over the regions of a shared code. *)
Fixpoint source_loop (db : database) (national : str) (regions : list str)
  : outcome perr (option msource) :=
  match regions with
  | [] => Ok None
  | r :: regions' =>
      let* meta := unwrap (by_id db r) in
      let hit := match md_leading_digits meta with
                 | Some pattern => found_at_start (re_find pattern national)
                 | None => negb (ptype_eqb (number_type meta national) TUnknown)
                 end in
      if hit then let* i := unwrap (id_of_name r) in Ok (Some (SLeft i))
      else source_loop db national regions'
  end.

(** validator.rs:145-177 *)
Definition source_for (db : database) (code : N) (national : str)
  : outcome perr (option msource) :=
  match region db code with
  | None => Ok None
  | Some [r] =>
      if str_eqb r (lit "001") then Ok (Some (SRight code))
      else match id_of_name r with
           | Some i => Ok (Some (SLeft i))
           | None => Ok None
           end
  | Some regions => source_loop db national regions
  end.

(** The metadata a source stands for: the [match] repeated in
    validator.rs:100-103, phone_number.rs:214-215 and parser/mod.rs:78-82. *)
Definition source_meta (db : database) (s : option msource) : option metadata :=
  match s with
  | None => None
  | Some (SLeft i) => by_id db (id_name i)
  | Some (SRight c) => match by_code db c with Some (m :: _) => Some m | _ => None end
  end.
