(** * Bytes: from the contents of a file to the events of the reader

    database.rs:44-46, [Database::load], hands the bytes of a file to the loader
    (loader.rs:92-94); [Database::parse] (database.rs:49-51) those of a text.
    The reader works on bytes: it looks only for ASCII characters and never
    decodes anything, so it is the automaton of [Xml] run on bytes.  The names,
    values and texts it reports are bytes too.  Where loader.rs uses them:

    - names of elements are compared as bytes (loader.rs:104, 112, 142, 238, ...);
    - keys and values of attributes go through [str::from_utf8] (loader.rs:180,
      366, 487), with an error if they are not UTF-8;
    - a text goes through it where it is the content of an element that is read
      (loader.rs:614), with an error likewise, and is skipped elsewhere
      (loader.rs:101, 139, ...).

    Here the events of the reader are turned into those of [Loader]: an attribute
    that is not UTF-8 becomes a malformed one, a text that is not UTF-8 becomes a
    comment (skipped where texts are skipped, an error where a text is wanted),
    and a name that is not UTF-8 is kept apart from all text.

    Simplifications: a byte is a number (nothing below needs it to be less than
    256); which error is reported for what is not UTF-8 is not told apart; that
    the file can be opened and read is taken for granted. *)
From Verif Require Import Base CountryId Types Metadata Database Loader Xml Postcard.

(** the name of an element; numbers from 1114112 on are no characters *)
Definition name_text (b : bytes) : str :=
  match dec_utf8 b with Ok s => s | _ => map (N.add 1114112) b end.

(** loader.rs:180, 366, 487 *)
Definition attr_text (a : attr) : attr :=
  match a with
  | Some (k, v) =>
      match dec_utf8 k, dec_utf8 v with
      | Ok k', Ok v' => Some (k', v')
      | _, _ => None
      end
  | None => None
  end.

Definition event_text (e : event) : event :=
  match e with
  | EvStart n attrs => EvStart (name_text n) (map attr_text attrs)
  | EvEnd n => EvEnd (name_text n)
  | EvEmpty n attrs => EvEmpty (name_text n) (map attr_text attrs)
  | EvText t => match dec_utf8 t with Ok s => EvText s | _ => EvComment end
  | EvComment => EvComment
  | EvDocType => EvDocType
  | EvOther => EvOther
  | EvError => EvError
  end.

(** a byte order mark at the very start is skipped *)
Definition skip_bom (b : bytes) : bytes :=
  match b with
  | x :: y :: z :: r => if N.eqb x 239 && N.eqb y 187 && N.eqb z 191 then r else b
  | _ => b
  end.

(** what the reader reports *)
Definition raw_events (b : bytes) : list event :=
  let '(es, x) := xml_run xml_start (skip_bom b) in es ++ xml_finish x.

(** loader.rs:92-94, [load] *)
Definition load_bytes (b : bytes) : outcome lerr (list lmetadata) := load (map event_text (raw_events b)).

(** database.rs:44-46, [Database::load], on the contents of the file *)
Definition db_load_bytes (b : bytes) : outcome lerr database :=
  let* l := load_bytes b in db_from l.
