(** * Xml: from the text of a document to the events of the reader

    loader.rs:92-94 reads the document with [quick_xml::Reader::from_reader] and
    the reader's default configuration: names of end tags are checked, text is
    not trimmed, empty elements are reported as such.  The reader is a
    dependency (Cargo.toml:21, quick-xml 0.28 to 0.41), modelled here from its
    documented behaviour as an automaton that reads one character at a time.

    Here the document is text; the reader works on its UTF-8 bytes, which [Bytes]
    models and C64 proves to come to the same.

    Simplifications: after the first [EvError] nothing
    is reported; every function of loader.rs returns at that event.  Inside a
    document type declaration only angle brackets are counted, as the reader did
    up to 0.36; later versions also skip quoted text, comments and processing
    instructions there.  A reference "&...;" in text is an event of its own
    ([EvOther]), as it is from 0.38 on; before, it was part of the text.
    Errors are not told apart. *)
From Verif Require Import Base CountryId Types Metadata Database Loader.

(** white space of the reader ([is_whitespace] in quick-xml) *)
Definition xml_ws (c : char) : bool := N.eqb c 32 || N.eqb c 13 || N.eqb c 10 || N.eqb c 9.
Definition skip_xml_ws (s : str) : str := snd (span xml_ws s).

(** [BytesStart::attributes()] (used at loader.rs:177, 362, 484): the attributes
    in the text that follows the name of a tag; the list ends at the first one
    that is malformed or repeats a key.  [fuel]: every attribute takes up
    characters. *)
Fixpoint xml_attrs (fuel : nat) (seen : list str) (s : str) : list attr :=
  match fuel with
  | O => []
  | S fuel' =>
      match skip_xml_ws s with
      | [] => []
      | c :: r =>
          let '(k, r1) := span (fun c => negb (N.eqb c 61 || xml_ws c)) r in
          let key := c :: k in
          match skip_xml_ws r1 with
          | [] => [None]
          | e :: r2 =>
              if N.eqb e 61 then
                if existsb (str_eqb key) seen then [None] else
                match skip_xml_ws r2 with
                | [] => [None]
                | q :: r3 =>
                    if N.eqb q 34 || N.eqb q 39 then
                      let '(v, r4) := span (fun c => negb (N.eqb c q)) r3 in
                      match r4 with
                      | [] => [None]
                      | _ :: r5 => Some (key, v) :: xml_attrs fuel' (key :: seen) r5
                      end
                    else [None]
                end
              else [None]
          end
      end
  end.

(** text that was collected last character first *)
Definition in_order (s : str) : str := rev_append s [].

(** where the reader is *)
Inductive xml_at :=
| XText (seen : str)                       (* in text; what was read, reversed *)
| XRef                                     (* in a reference, after "&" *)
| XOpen                                    (* after "<" *)
| XTag (seen : str) (quote : option char)  (* in a start tag, perhaps in quotes *)
| XEndTag (seen : str)                     (* after "</" *)
| XPi (mark : bool)                        (* after "<?"; just after a "?" *)
| XBang                                    (* after "<!" *)
| XDash                                    (* after "<!-" *)
| XComment (dashes : nat)                  (* in a comment; dashes just read, up to 2 *)
| XCDataWord (rest : str)                  (* "<![CDATA[" not yet complete *)
| XCData (brackets : nat)                  (* in a CDATA section, likewise *)
| XDocWord (rest : str)                    (* "<!DOCTYPE" not yet complete *)
| XDoc (named : bool) (depth : nat)        (* in it; anything but white space seen; open brackets *)
| XFailed.

(** the elements that are open, innermost first *)
Record xml := mk_xml { x_open : list str; x_at : xml_at }.
Definition xml_start : xml := mk_xml [] (XText []).

Definition text_events (seen : str) : list event :=
  match seen with [] => [] | _ => [EvText (in_order seen)] end.
Definition xml_fail (open : list str) : list event * xml := ([EvError], mk_xml open XFailed).

(** the tag "<...>" with [seen] (reversed) in it *)
Definition xml_tag (open : list str) (seen : str) : list event * xml :=
  let '(empty, content) := match seen with
    | c :: r => if N.eqb c 47 then (true, in_order r) else (false, in_order seen)
    | [] => (false, [])
    end in
  let '(name, r) := span (fun c => negb (xml_ws c)) content in
  let attrs := xml_attrs (length r) [] r in
  if empty then ([EvEmpty name attrs], mk_xml open (XText []))
  else ([EvStart name attrs], mk_xml (name :: open) (XText [])).

(** the tag "</...>"; white space after the name does not count *)
Definition xml_end_tag (open : list str) (seen : str) : list event * xml :=
  let name := in_order (skip_xml_ws seen) in
  match open with
  | n :: open' => if str_eqb n name then ([EvEnd name], mk_xml open' (XText [])) else xml_fail open
  | [] => xml_fail open
  end.

Definition xml_in_tag (open : list str) (seen : str) (quote : option char) (c : char) : list event * xml :=
  match quote with
  | Some q => ([], mk_xml open (XTag (c :: seen) (if N.eqb c q then None else quote)))
  | None =>
      if N.eqb c 62 then xml_tag open seen
      else ([], mk_xml open (XTag (c :: seen) (if N.eqb c 34 || N.eqb c 39 then Some c else None)))
  end.

(** [c], an ASCII letter, without regard to case *)
Definition to_upper (c : char) : char := if in_range 97 122 c then (c - 32)%N else c.

(** one character *)
Definition xml_step (x : xml) (c : char) : list event * xml :=
  let open := x_open x in
  let go a := ([], mk_xml open a) in
  match x_at x with
  | XText seen =>
      if N.eqb c 60 then (text_events seen, mk_xml open XOpen)
      else if N.eqb c 38 then (text_events seen, mk_xml open XRef)
      else go (XText (c :: seen))
  | XRef =>
      if N.eqb c 59 then ([EvOther], mk_xml open (XText []))
      else if N.eqb c 60 || N.eqb c 38 then xml_fail open
      else go XRef
  | XOpen =>
      if N.eqb c 33 then go XBang
      else if N.eqb c 47 then go (XEndTag [])
      else if N.eqb c 63 then go (XPi false)
      else xml_in_tag open [] None c
  | XTag seen quote => xml_in_tag open seen quote c
  | XEndTag seen => if N.eqb c 62 then xml_end_tag open seen else go (XEndTag (c :: seen))
  | XPi mark =>
      if mark then if N.eqb c 62 then ([EvOther], mk_xml open (XText [])) else go (XPi (N.eqb c 63))
      else go (XPi (N.eqb c 63))
  | XBang =>
      if N.eqb c 45 then go XDash
      else if N.eqb c 91 then go (XCDataWord (lit "CDATA["))
      else if N.eqb (to_upper c) 68 then go (XDocWord (lit "OCTYPE"))
      else xml_fail open
  | XDash => if N.eqb c 45 then go (XComment 0) else xml_fail open
  | XComment n =>
      if N.eqb c 45 then go (XComment (match n with O => 1 | _ => 2 end))
      else if N.eqb c 62 then
        match n with 2 => ([EvComment], mk_xml open (XText [])) | _ => go (XComment 0) end
      else go (XComment 0)
  | XCDataWord w =>
      match w with
      | d :: w' =>
          if N.eqb c d then go (match w' with [] => XCData 0 | _ => XCDataWord w' end) else xml_fail open
      | [] => xml_fail open
      end
  | XCData n =>
      if N.eqb c 93 then go (XCData (match n with O => 1 | _ => 2 end))
      else if N.eqb c 62 then
        match n with 2 => ([EvOther], mk_xml open (XText [])) | _ => go (XCData 0) end
      else go (XCData 0)
  | XDocWord w =>
      match w with
      | d :: w' =>
          if N.eqb (to_upper c) d then go (match w' with [] => XDoc false 0 | _ => XDocWord w' end)
          else xml_fail open
      | [] => xml_fail open
      end
  | XDoc named depth =>
      if N.eqb c 60 then go (XDoc true (S depth))
      else if N.eqb c 62 then
        match depth with
        | O => if named then ([EvDocType], mk_xml open (XText [])) else xml_fail open
        | S d => go (XDoc true d)
        end
      else go (XDoc (named || negb (xml_ws c)) depth)
  | XFailed => go XFailed
  end.

Fixpoint xml_run (x : xml) (s : str) : list event * xml :=
  match s with
  | [] => ([], x)
  | c :: s' =>
      let '(e, x1) := xml_step x c in
      let '(es, x2) := xml_run x1 s' in
      (e ++ es, x2)
  end.

(** at the end of the input: text still to be reported, or unfinished markup.
    Elements that are still open are no error. *)
Definition xml_finish (x : xml) : list event :=
  match x_at x with
  | XText seen => text_events seen
  | XFailed => []
  | _ => [EvError]
  end.

(** a byte order mark at the very start is skipped *)
Definition xml_skip_bom (s : str) : str :=
  match s with c :: r => if N.eqb c 65279 then r else s | [] => s end.

(** The events of a document. *)
Definition xml_events (s : str) : list event :=
  let '(es, x) := xml_run xml_start (xml_skip_bom s) in es ++ xml_finish x.

(** loader.rs:92-94, [load], on the text of the document *)
Definition load_text (s : str) : outcome lerr (list lmetadata) := load (xml_events s).

(** database.rs:49-51, [Database::parse]; also database.rs:44-46,
    [Database::load], on the contents of the file *)
Definition db_parse_text (s : str) : outcome lerr database :=
  let* l := load_text s in db_from l.
