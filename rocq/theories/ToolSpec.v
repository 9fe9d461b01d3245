(** What a tool relies on when it calls the API. *)
From Verif Require Import Base ParseModel ParseSpec WireModel WireSpec ToolModel.

(** The unread input starts with a message that the other side sent for [c] with
    payload [data], cut into records in any way; [rest] follows it. *)
Definition Incoming (rs : list rd) (c : command) (data : bytes) (rest : list rd) : Prop :=
  exists al m first more, Sent al c data m /\ CutIntoRecords m first more /\
    rs = map RMsg (first :: more) ++ rest.

(** The documented positive reply for each call. *)
Definition Positive (k : call) (c : command) : Prop :=
  match k with
  | Version min max => c_id c = C_VERSION /\ (min <= c_number c <= max)%Z
  | LibPath _ | Feature _ | ReturnFeature _ | License _ | ReturnLicense _ => c_id c = C_YES
  | File _ => c_id c = C_FILECONT
  end.

(** The text of an error object. *)
Definition Says (e : option error) (text : bytes) : Prop :=
  exists x, e = Some x /\ err_text x = Some text.

(** A file was opened whose contents are [data] and nothing of it has been read. *)
Definition Opened (data : bytes) (h : handle) : Prop :=
  h_ptr h = true /\ h_live h = true /\ fc_size h = zlen data /\ fc_off h = 0%Z /\
  fc_ptr h = true /\ fc_cell h = Some data.

(** Everything that belonged to the file has been released and the caller's pointer
    is NULL. *)
Definition Released (h : handle) : Prop :=
  h_ptr h = false /\ h_live h = false /\ fc_cell h = None.

(** Successive reads. *)
Fixpoint read_all (h : handle) (sizes : list Z) : outcome (list (option bytes) * handle) :=
  match sizes with
  | [] => Ok ([], h)
  | n :: r => do (b, h1) <- read_file_bytes h n ; do (bs, h2) <- read_all h1 r ; Ok (b :: bs, h2)
  end.

(** Results of successive reads of the remaining bytes [rem]: each read delivers the
    next bytes, as many as fit; after the end there is only -1. *)
Inductive Piecewise : bytes -> list Z -> list (option bytes) -> Prop :=
| PW_nil rem : Piecewise rem [] []
| PW_piece a b n sizes rs : a ++ b <> [] -> zlen a = Z.min n (zlen (a ++ b)) ->
    Piecewise b sizes rs -> Piecewise (a ++ b) (n :: sizes) (Some a :: rs)
| PW_end n sizes rs : Piecewise [] sizes rs -> Piecewise [] (n :: sizes) (None :: rs).

(** All bytes delivered by a list of results. *)
Definition delivered (rs : list (option bytes)) : bytes :=
  concat (map (fun r => match r with Some b => b | None => [] end) rs).
