(** WireSpec: where the messages the program handles come from (C105), in terms of what the
    adapters of the configured interfaces deliver; no function of the models is used, only their
    record types. *)
From Verif Require Import GoBase CanModel CanusbModel CanusbSpec ActisenseSpec NmeaTypes NmeaModel PipelineModel PipelineSpec DeathSpec CrashSpec.
Open Scope Z_scope.
Open Scope list_scope.

(** [fresh_line evs l]: the input [evs] ends with the line l, at its first carriage return. *)
Definition fresh_line (evs : list rd_event) (l : bytes) : Prop :=
  exists pre seg c n body, evs = pre ++ seg /\ ~ In RErr seg /\ noticed 0 seg = c :: repeat c n ++ body ++ [13] /\
    starts c /\ Forall not_start body /\ ~ In 13 body /\ l = c :: body.

(** The frame a line spells. *)
Definition frame_of (ty : msg_type) (id : Z) (data : bytes) : can_frame := mkframe (frame_message id data) ty id 0 0.

(* ------------------------------------------------------------------ fast packets *)

(** [collected k l fs]: of the frames l, those of the same transfer as k that carry the numbers
    1, 2, ... in turn are fs; a frame with another number than the next one is passed over. *)
Inductive collected (k : can_frame) : list can_frame -> list can_frame -> Prop :=
| co_nil : collected k [] []
| co_take l fs x : collected k l fs -> same_transfer k x -> hdr_seq (frame_head x) = zlen fs + 1 -> collected k (l ++ [x]) (fs ++ [x])
| co_skip l fs x : collected k l fs -> ~ (same_transfer k x /\ hdr_seq (frame_head x) = zlen fs + 1) -> collected k (l ++ [x]) fs.

(** [in_progress h k f0 L d0 fs]: after the frames h, the transfer k belongs to has been begun by
    f0, which declares L bytes and brings d0, has been continued by fs, and lacks bytes still. *)
Definition in_progress (h : list can_frame) (k f0 : can_frame) (L : Z) (d0 : bytes) (fs : list can_frame) : Prop :=
  exists h1 h2, h = h1 ++ f0 :: h2 /\ same_transfer k f0 /\ first_frame f0 L d0 /\
    (forall x, In x h2 -> same_transfer k x -> ~ starts_transfer x) /\ collected k h2 fs /\ zlen (d0 ++ cont_payload fs) < L.

(** The message of a transfer. *)
Definition whole (f0 : can_frame) (L : Z) (data : bytes) : raw_message :=
  mkraw (rm_priority (cf_raw f0)) (rm_pgn (cf_raw f0)) (rm_source (cf_raw f0)) (rm_dest (cf_raw f0)) L data.

(** [gives tbl h f o]: what the frame f gives after the frames h: a message or nothing.  A frame
    whose PGN needs no fast packets is a message.  A first frame is one if it brings all bytes it
    declares.  A frame that continues a transfer gives the message if no bytes lack any more; one
    that continues none is a message itself. *)
Inductive gives (tbl : list pgn_def) (h : list can_frame) (f : can_frame) : option raw_message -> Prop :=
| gv_single : ~ fast_pgn tbl (rm_pgn (cf_raw f)) -> gives tbl h f (Some (cf_raw f))
| gv_first L d0 : fast_pgn tbl (rm_pgn (cf_raw f)) -> first_frame f L d0 ->
    gives tbl h f (if L <=? zlen d0 then Some (whole f L d0) else None)
| gv_next f0 L d0 fs : fast_pgn tbl (rm_pgn (cf_raw f)) -> ~ starts_transfer f -> in_progress h f f0 L d0 fs ->
    hdr_seq (frame_head f) = zlen fs + 1 ->
    gives tbl h f (if L <=? zlen (d0 ++ cont_payload (fs ++ [f])) then Some (whole f0 L (d0 ++ cont_payload (fs ++ [f]))) else None)
| gv_stray h0 r : fast_pgn tbl (rm_pgn (cf_raw f)) -> rm_data (cf_raw f) = h0 :: r -> ~ starts_transfer f ->
    (forall f0 L d0 fs, in_progress h f f0 L d0 fs -> hdr_seq (frame_head f) <> zlen fs + 1) -> gives tbl h f (Some (cf_raw f)).

(* ------------------------------------------------------------------ what the adapters have brought *)

(** A frame taken from the line of interface en_if, at the en_pos-th piece of its input, and what
    it gave. *)
Record entry := mken { en_if : nat; en_pos : nat; en_frame : can_frame; en_out : option raw_message }.

(** No error and no start character. *)
Definition quiet (evs : list rd_event) : Prop := ~ In RErr evs /\ forall b, In (RByte b) evs -> not_start b.
(** The line of interface i that ends at position n has given a message already. *)
Definition used_up (h : list entry) (i n : nat) (evs : list rd_event) : Prop :=
  exists e m, In e h /\ en_if e = i /\ en_out e = Some m /\ (en_pos e < n)%nat /\ quiet (skipn (en_pos e) (firstn n evs)).

(** [history tbl ifs h]: h is a history of the frames of all canusb interfaces: each is spelled by
    a line that ends at its position, has given no message before, and gives what it must after
    the frames of all interfaces before. *)
Inductive history (tbl : list pgn_def) (ifs : list iface) : list entry -> Prop :=
| hi_nil : history tbl ifs []
| hi_frame h i ifc n l ty id data o : history tbl ifs h -> nth_error ifs i = Some ifc -> if_type ifc = str "canusb" ->
    (n <= List.length (input_of ifc))%nat -> (forall e, In e h -> en_if e = i -> (en_pos e < n)%nat) ->
    can_line (firstn n (input_of ifc)) l -> frame_text l ty id data -> ~ used_up h i n (input_of ifc) ->
    gives tbl (map en_frame h) (frame_of ty id data) o ->
    history tbl ifs (h ++ [mken i n (frame_of ty id data) o]).

(** [complete h i n evs]: no frame is missing of the first n pieces of the input evs of interface
    i: every line that ends there is in the history or has given a message already. *)
Definition complete (h : list entry) (i n : nat) (evs : list rd_event) : Prop :=
  forall k l ty id data, (k <= n)%nat -> can_line (firstn k evs) l -> frame_text l ty id data ->
    used_up h i k evs \/ exists o, In (mken i k (frame_of ty id data) o) h.

(** [arrives_in ifs h i n it]: the n-th piece of input of interface i (the n-th line of a file)
    completes the item [it]; h is the history of the canusb interfaces. *)
Inductive arrives_in (ifs : list iface) (h : list entry) (i n : nat) : item -> Prop :=
| ar_canusb f m : In (mken i n f (Some m)) h -> arrives_in ifs h i n (IRaw m)
| ar_actisense ifc mm m : nth_error ifs i = Some ifc -> if_type ifc = str "actisense" -> (n <= List.length (input_of ifc))%nat ->
    act_message (firstn n (input_of ifc)) mm -> delivers mm m -> arrives_in ifs h i n (IRaw m)
| ar_file ifc full last k raw l : nth_error ifs i = Some ifc -> if_type ifc = str "file" -> n = S k ->
    splits (if_text ifc) full last -> nth_error (before_long (lines_of full last)) k = Some raw -> stripped raw l ->
    arrives_in ifs h i n (ILine l).
Definition arrives (tbl : list pgn_def) (ifs : list iface) (i n : nat) (it : item) : Prop :=
  exists h, history tbl ifs h /\ arrives_in ifs h i n it.

(** A line of a file that is no CanBoat message is left out. *)
Definition usable (tbl : list pgn_def) (unmarshal : bytes -> option canboat) (it : item) : Prop :=
  match it with IRaw _ => True | ILine l => exists x, FromCanBoat unmarshal tbl l = Ret x end.

(** Strictly increasing positions. *)
Fixpoint rising (from : nat) (l : list nat) : Prop :=
  match l with [] => True | n :: r => (from < n)%nat /\ rising n r end.

(** Interface i has read the first n pieces (lines) of its input. *)
Definition read_by (ifc : iface) (s : sys) (i n : nat) : Prop :=
  match nth_error (y_threads s) i with
  | Some (mkth (SCan _ _ rest) _) | Some (mkth (SAct _ rest) _) => (n + List.length rest = List.length (input_of ifc))%nat
  | Some (mkth (SFile rest) _) => exists full last, splits (if_text ifc) full last /\
      (n + List.length rest = List.length (before_long (lines_of full last)))%nat
  | Some (mkth (SBoot _) _) => n = 0%nat
  | None => False
  end.

(** What ends the program, coming from interface i: it cannot be started; a line or a frame that
    cannot be read; a message (put together from its frames) that cannot be decoded. *)
Inductive ends (tbl : list pgn_def) (ifs : list iface) (i : nat) (ifc : iface) : Prop :=
| en_start : ~ startable ifc -> ends tbl ifs i ifc
| en_line evs rest l : if_type ifc = str "canusb" -> input_of ifc = evs ++ rest -> can_line evs l -> cut_line l \/ headless tbl l -> ends tbl ifs i ifc
| en_ngt evs rest m : if_type ifc = str "actisense" -> input_of ifc = evs ++ rest -> act_message evs m -> crashes m -> ends tbl ifs i ifc
| en_message n m : arrives tbl ifs i n (IRaw m) -> fatal (rm_data m) 0 (rm_pgn m) -> ends tbl ifs i ifc.
