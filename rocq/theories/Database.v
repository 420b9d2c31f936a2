(** * Database: /repo/src/metadata/database.rs

    Hash maps are association lists with at most one entry per key. *)
From Verif Require Import Base Regex RegexSyntax CountryId Types Metadata.

(** database.rs:34-39 *)
Record database := mk_database {
  db_by_id : list (str * metadata);
  db_by_code : list (N * list metadata);
  db_regions : list (N * list str) }.

(** [FnvHashMap] operations *)
Fixpoint sget {A} (m : list (str * A)) (k : str) : option A :=
  match m with
  | [] => None
  | (k', v) :: m' => if str_eqb k' k then Some v else sget m' k
  end.
Fixpoint sinsert {A} (m : list (str * A)) (k : str) (v : A) : list (str * A) :=
  match m with
  | [] => [(k, v)]
  | (k', v') :: m' => if str_eqb k' k then (k, v) :: m' else (k', v') :: sinsert m' k v
  end.
Fixpoint nget {A} (m : list (N * A)) (k : N) : option A :=
  match m with
  | [] => None
  | (k', v) :: m' => if N.eqb k' k then Some v else nget m' k
  end.
(** [*map.entry(k).or_insert_with(Vec::new) = f(..)] *)
Fixpoint nupdate {A} (m : list (N * list A)) (k : N) (f : list A -> list A) : list (N * list A) :=
  match m with
  | [] => [(k, f [])]
  | (k', v) :: m' => if N.eqb k' k then (k, f v) :: m' else (k', v) :: nupdate m' k f
  end.

(** database.rs:65-67 *)
Definition db_regex (value : str) : outcome lerr regex :=
  ok_or (regex_build true false value) LRegex.

(** database.rs:69-89.  The two [unwrap]s on the missing pattern come before
    the [ok_or_else], which therefore can never fire. *)
Definition db_descriptor (d : ldescriptor) : outcome lerr descriptor :=
  let* _ := unwrap (ld_national_number d) in
  let* p := ok_or (ld_national_number d) (LMissingValue (lit "descriptor") (lit "national_number")) in
  let* r := db_regex p in
  Ok (mk_descriptor r (ld_possible_length d) (ld_possible_local_length d) (ld_example d)).

(** [iter.map(f).collect::<Result<_, _>>()] *)
Fixpoint omap_list {E A B} (f : A -> outcome E B) (l : list A) : outcome E (list B) :=
  match l with
  | [] => Ok []
  | x :: l' => let* y := f x in let* ys := omap_list f l' in Ok (y :: ys)
  end.
(** [tranpose(o.map(f))], database.rs:55-63 *)
Definition omap_opt {E A B} (f : A -> outcome E B) (o : option A) : outcome E (option B) :=
  match o with None => Ok None | Some x => let* y := f x in Ok (Some y) end.

(** database.rs:91-121 *)
Definition db_format (f : lformat) : outcome lerr format :=
  let* p := ok_or (lf_pattern f) (LMissingValue (lit "format") (lit "pattern")) in
  let* p := db_regex p in
  let* fmt := ok_or (lf_format f) (LMissingValue (lit "format") (lit "format")) in
  let* ld := omap_list db_regex (lf_leading_digits f) in
  Ok (mk_format p fmt ld (lf_national_prefix_formatting_rule f)
                (lf_national_prefix_optional_when_formatting f) (lf_domestic_carrier f)).

(** database.rs:123-186 *)
Definition db_metadata (m : lmetadata) : outcome lerr metadata :=
  let* g := ok_or (lm_general m) (LMissingValue (lit "metadata") (lit "generalDesc")) in
  let* g := db_descriptor g in
  let* fixed_line := omap_opt db_descriptor (lm_fixed_line m) in
  let* mobile := omap_opt db_descriptor (lm_mobile m) in
  let* toll_free := omap_opt db_descriptor (lm_toll_free m) in
  let* premium_rate := omap_opt db_descriptor (lm_premium_rate m) in
  let* shared_cost := omap_opt db_descriptor (lm_shared_cost m) in
  let* personal_number := omap_opt db_descriptor (lm_personal_number m) in
  let* voip := omap_opt db_descriptor (lm_voip m) in
  let* pager := omap_opt db_descriptor (lm_pager m) in
  let* uan := omap_opt db_descriptor (lm_uan m) in
  let* emergency := omap_opt db_descriptor (lm_emergency m) in
  let* voicemail := omap_opt db_descriptor (lm_voicemail m) in
  let* short_code := omap_opt db_descriptor (lm_short_code m) in
  let* standard_rate := omap_opt db_descriptor (lm_standard_rate m) in
  let* carrier := omap_opt db_descriptor (lm_carrier m) in
  let* no_international := omap_opt db_descriptor (lm_no_international m) in
  let* i := ok_or (lm_id m) (LMissingValue (lit "metadata") (lit "id")) in
  let* cc := ok_or (lm_country_code m) (LMissingValue (lit "metadata") (lit "countryCode")) in
  let* ip := omap_opt db_regex (lm_international_prefix m) in
  let* npp := omap_opt db_regex (lm_national_prefix_for_parsing m) in
  let* fs := omap_list db_format (lm_formats m) in
  let* ifs := omap_list db_format (lm_international_formats m) in
  let* ld := omap_opt db_regex (lm_leading_digits m) in
  Ok (mk_metadata
        (mk_descriptors g fixed_line mobile toll_free premium_rate shared_cost personal_number
                        voip pager uan emergency voicemail short_code standard_rate carrier
                        no_international)
        i cc ip (lm_preferred_international_prefix m) (lm_national_prefix m)
        (lm_preferred_extension_prefix m) npp (lm_national_prefix_transform_rule m)
        fs ifs (lm_main_country_for_code m) ld (lm_mobile_number_portable m)).

(** database.rs:193-207: the loop body *)
Definition db_insert (db : database) (m : metadata) : database :=
  let put {A} (x : A) (l : list A) :=
    if md_main_country_for_code m then x :: l else l ++ [x] in
  mk_database
    (sinsert (db_by_id db) (md_id m) m)
    (nupdate (db_by_code db) (md_country_code m) (put m))
    (nupdate (db_regions db) (md_country_code m) (put (md_id m))).

Definition db_empty : database := mk_database [] [] [].

Fixpoint db_from_loop (db : database) (l : list lmetadata) : outcome lerr database :=
  match l with
  | [] => Ok db
  | m :: l' => let* m := db_metadata m in db_from_loop (db_insert db m) l'
  end.

(** database.rs:54-215, [Database::from] *)
Definition db_from (l : list lmetadata) : outcome lerr database := db_from_loop db_empty l.

(** database.rs:218-224 *)
Definition by_id (db : database) (k : str) : option metadata := sget (db_by_id db) k.
(** database.rs:227-235 *)
Definition by_code (db : database) (k : N) : option (list metadata) := nget (db_by_code db) k.
(** database.rs:238-246 *)
Definition region (db : database) (k : N) : option (list str) := nget (db_regions db) k.
(** database.rs:249-251; a Rust hash map iterates in an unspecified order. *)
Definition db_iter (db : database) : list metadata := map snd (db_by_id db).
