(** UnjsonSpec: the JSON texts the program accepts and what they say (C91-C95): RFC 8259 with
    two liberties, texts that are not UTF-8 and unpaired surrogates, and a limit on nesting. *)
From Coq Require Import Reals Floats.SpecFloat.
From Flocq Require Import Core.
From Verif Require Import GoBase CanModel NmeaTypes NmeaModel NmeaSpec SignalkSpec ApiModel ApiSpec ConfigModel JsonSpec UnjsonModel.
Open Scope Z_scope.
Open Scope list_scope.

Notation decimal := NmeaSpec.decimal.

(* ------------------------------------------------------------------ texts *)

(** The inside of a string: characters as in RFC 8259; a byte that starts no UTF-8 character
    and an escaped surrogate that has no partner count as U+FFFD. *)
Inductive lax_chars : bytes -> list Z -> Prop :=
| lc_end : lax_chars [] []
| lc_char s c r cs : char_text s c -> lax_chars r cs -> lax_chars (s ++ r) (c :: cs)
| lc_bad b r cs : 128 <= b -> (forall c enc r', utf8 c enc -> b :: r <> enc ++ r') -> lax_chars r cs ->
    lax_chars (b :: r) (65533 :: cs)
| lc_lone h a r cs : hex4 h a -> 55296 <= a < 57344 ->
    (forall l b r', a < 56320 -> hex4 l b -> 56320 <= b < 57344 -> r <> (92 :: 117 :: l) ++ r') ->
    lax_chars r cs -> lax_chars ((92 :: 117 :: h) ++ r) (65533 :: cs).
(** A string and the Go string (UTF-8) it stands for. *)
Definition lax_string (t s : bytes) : Prop := exists b cs, t = [34] ++ b ++ [34] /\ lax_chars b cs /\ utf8_text s cs.

(** [lax d t g]: the text t, nested at most d deep, is the value g. *)
Inductive lax : nat -> bytes -> gj -> Prop :=
| lx_null d : lax d (str "null") GNull
| lx_true d : lax d (str "true") (GBool true)
| lx_false d : lax d (str "false") (GBool false)
| lx_num d t m e : number_text t m e -> lax d t (GNum t)
| lx_str d t s : lax_string t s -> lax d t (GStr s)
| lx_arr0 d w : blank_text w -> lax (S d) ([91] ++ w ++ [93]) (GArr [])
| lx_arr d s l : lax_items d s l -> lax (S d) ([91] ++ s ++ [93]) (GArr l)
| lx_obj0 d w : blank_text w -> lax (S d) ([123] ++ w ++ [125]) (GObj [])
| lx_obj d s l : lax_members d s l -> lax (S d) ([123] ++ s ++ [125]) (GObj l)
with lax_items : nat -> bytes -> list gj -> Prop :=
| li_one d w s w' v : blank_text w -> lax d s v -> blank_text w' -> lax_items d (w ++ s ++ w') [v]
| li_cons d w s w' v r l : blank_text w -> lax d s v -> blank_text w' -> lax_items d r l ->
    lax_items d ((w ++ s ++ w') ++ [44] ++ r) (v :: l)
with lax_members : nat -> bytes -> list (bytes * gj) -> Prop :=
| lm_one d k s v : lax_member d k s v -> lax_members d s [(k, v)]
| lm_cons d k s v r l : lax_member d k s v -> lax_members d r l -> lax_members d (s ++ [44] ++ r) ((k, v) :: l)
with lax_member : nat -> bytes -> bytes -> gj -> Prop :=
| lm d w1 t k w2 w3 s w4 v : blank_text w1 -> lax_string t k -> blank_text w2 -> blank_text w3 -> lax d s v -> blank_text w4 ->
    lax_member d k (w1 ++ t ++ w2 ++ [58] ++ w3 ++ s ++ w4) v.
(** A text with white space around it. *)
Definition lax_text (d : nat) (s : bytes) (g : gj) : Prop :=
  exists w t w', s = w ++ t ++ w' /\ blank_text w /\ blank_text w' /\ lax d t g.
(** A text with anything after it. *)
Definition starts_with (d : nat) (s : bytes) (g : gj) : Prop :=
  exists w t r, s = w ++ t ++ r /\ blank_text w /\ lax d t g.

(** The value of an RFC 8259 text and the value read: numbers by their texts, characters in
    UTF-8. *)
Inductive agrees : jv -> gj -> Prop :=
| ag_null : agrees JNull GNull
| ag_bool b : agrees (JBool b) (GBool b)
| ag_num t m e : number_text t m e -> agrees (JNum m e) (GNum t)
| ag_str s cs : utf8_text s cs -> agrees (JStr cs) (GStr s)
| ag_arr l l' : Forall2 agrees l l' -> agrees (JArr l) (GArr l')
| ag_obj ms ms' : Forall2 (fun a b => utf8_text (fst b) (fst a) /\ agrees (snd a) (snd b)) ms ms' -> agrees (JObj ms) (GObj ms').

(* ------------------------------------------------------------------ documents *)

(** What a member must be to be stored in a variable of the type. *)
Definition a_text (g : gj) (s : bytes) : Prop := g = GStr s.
Definition a_bool (g : gj) (b : bool) : Prop := g = GBool b.
Definition an_int (g : gj) (n : Z) : Prop := exists t, g = GNum t /\ int_text t n /\ - 2 ^ 63 <= n < 2 ^ 63.
Definition a_natural (bits : Z) (g : gj) (n : Z) : Prop := exists t, g = GNum t /\ decimal t n /\ n < 2 ^ bits.

(** [says P ms n v0 v]: in the object with these members, the last member called n (whatever the
    case of its letters) that is a P is the value v; without one v is v0. *)
Definition says {V} (P : gj -> V -> Prop) (ms : list (bytes * gj)) (n : bytes) (v0 v : V) : Prop :=
  (exists a k g b, ms = a ++ (k, g) :: b /\ reads_as k n /\ P g v /\
     forall k' g' w, In (k', g') b -> reads_as k' n -> ~ P g' w) \/
  (v = v0 /\ forall k g w, In (k, g) ms -> reads_as k n -> ~ P g w).
(** The members of the objects called n, in order. *)
Inductive inside (n : bytes) : list (bytes * gj) -> list (bytes * gj) -> Prop :=
| in_end : inside n [] []
| in_other k g r l : ~ reads_as k n \/ (forall m, g <> GObj m) -> inside n r l -> inside n ((k, g) :: r) l
| in_object k m r l : reads_as k n -> inside n r l -> inside n ((k, GObj m) :: r) (m ++ l).
(** The entries of the map called n: those of its objects, but null empties it. *)
Inductive entries (n : bytes) : list (bytes * gj) -> option (list (bytes * gj)) -> Prop :=
| en_none : entries n [] None
| en_other ms o k g : entries n ms o -> ~ reads_as k n \/ g <> GNull /\ (forall m, g <> GObj m) -> entries n (ms ++ [(k, g)]) o
| en_null ms o k : entries n ms o -> reads_as k n -> entries n (ms ++ [(k, GNull)]) None
| en_object ms o k l : entries n ms o -> reads_as k n ->
    entries n (ms ++ [(k, GObj l)]) (Some (match o with Some a => a | None => [] end ++ l)).
(** The map has, for every name, what the last entry of that name stands for. *)
Definition maps_to {V} (P : gj -> V -> Prop) (es : list (bytes * gj)) (l : list (bytes * V)) : Prop :=
  NoDup (map fst l) /\ (forall k, In k (map fst l) <-> In k (map fst es)) /\
  forall k v, In (k, v) l -> exists a g b, es = a ++ (k, g) :: b /\ ~ In k (map fst b) /\ P g v.

(** A settings document, option by option. *)
Definition iface_says (g : gj) (i : iface_cfg) : Prop :=
  (exists ms, g = GObj ms /\ says a_text ms (str "Path") [] (ic_path i) /\ says a_text ms (str "Type") [] (ic_type i) /\
     says (a_natural 64) ms (str "Speed") 0 (ic_speed i)) \/
  ((forall ms, g <> GObj ms) /\ i = mkiface [] [] 0).
Definition server_says (ms : list (bytes * gj)) (s : server_cfg) : Prop :=
  says a_bool ms (str "EnableWebsockets") false (sv_websockets s) /\ says a_bool ms (str "UseTls") false (sv_tls s) /\
  says an_int ms (str "Port") 0 (sv_port s) /\ says a_text ms (str "ListenOn") [] (sv_listen s) /\
  says a_text ms (str "AssetPath") [] (sv_assets s) /\ says a_text ms (str "Certificate") [] (sv_cert s) /\
  says a_text ms (str "PublicKeyFile") [] (sv_public s) /\ says a_text ms (str "PrivateKeyFile") [] (sv_private s).
Definition mqtt_says (ms : list (bytes * gj)) (m : mqtt_cfg) : Prop :=
  says a_bool ms (str "Enable") false (mq_enable m) /\ says a_bool ms (str "UseTls") false (mq_tls m) /\
  says an_int ms (str "Port") 0 (mq_port m) /\ says a_text ms (str "Host") [] (mq_host m) /\
  says a_text ms (str "ClientId") [] (mq_client m) /\ says a_text ms (str "Username") [] (mq_user m) /\
  says a_text ms (str "Password") [] (mq_password m) /\ says a_text ms (str "Channel") [] (mq_channel m).
Definition vessel_says (ms : list (bytes * gj)) (v : vessel_cfg) : Prop :=
  says a_text ms (str "Name") [] (ve_name v) /\ says a_text ms (str "Manufacturer") [] (ve_manufacturer v) /\
  says a_text ms (str "Model") [] (ve_model v) /\ says an_int ms (str "Year") 0 (ve_year v) /\
  says an_int ms (str "Mmsi") 0 (ve_mmsi v) /\ says a_text ms (str "Callsign") [] (ve_callsign v) /\
  says a_text ms (str "Registration") [] (ve_registration v) /\ says a_text ms (str "Uuid") [] (ve_uuid v) /\
  says a_text ms (str "Uuid0") [] (ve_uuid0 v) /\ says a_text ms (str "Uuid1") [] (ve_uuid1 v) /\
  says a_text ms (str "Uuid2") [] (ve_uuid2 v) /\ says a_text ms (str "Uuid3") [] (ve_uuid3 v) /\
  says a_text ms (str "Uuid4") [] (ve_uuid4 v).
Definition settings_say (ms : list (bytes * gj)) (c : config) : Prop :=
  says a_text ms (str "LogLevel") [] (cf_log c) /\ says a_text ms (str "MapFile") [] (cf_map c) /\
  (exists l, inside (str "Server") ms l /\ server_says l (cf_server c)) /\
  (exists l, inside (str "Mqtt") ms l /\ mqtt_says l (cf_mqtt c)) /\
  (exists o, entries (str "Interfaces") ms o /\
     match o, cf_ifaces c with Some es, Some l => maps_to iface_says es l | None, None => True | _, _ => False end) /\
  (exists l, inside (str "Vessel") ms l /\ vessel_says l (cf_vessel c)).

(** Types of documents, and the documents of a type: null is of every type; members that are not
    named in the type may be anything. *)
Inductive jtype := TText | TBool | TInt | TNatural (bits : Z) | TRecord (fs : list (bytes * jtype)) | TMap (t : jtype) | TList (t : jtype).
Inductive fits : jtype -> gj -> Prop :=
| fi_null t : fits t GNull
| fi_text g s : a_text g s -> fits TText g
| fi_bool g b : a_bool g b -> fits TBool g
| fi_int g n : an_int g n -> fits TInt g
| fi_natural bits g n : a_natural bits g n -> fits (TNatural bits) g
| fi_record fs ms : (forall k g n t, In (k, g) ms -> In (n, t) fs -> reads_as k n -> fits t g) -> fits (TRecord fs) (GObj ms)
| fi_map t ms : (forall k g, In (k, g) ms -> fits t g) -> fits (TMap t) (GObj ms)
| fi_list t l : (forall g, In g l -> fits t g) -> fits (TList t) (GArr l).
Definition texts (ns : list bytes) : list (bytes * jtype) := map (fun n => (n, TText)) ns.
Definition settings_type : jtype := TRecord
  [(str "LogLevel", TText); (str "MapFile", TText);
   (str "Server", TRecord ([(str "EnableWebsockets", TBool); (str "UseTls", TBool); (str "Port", TInt)] ++
      texts [str "ListenOn"; str "AssetPath"; str "Certificate"; str "PublicKeyFile"; str "PrivateKeyFile"]));
   (str "Mqtt", TRecord ([(str "Enable", TBool); (str "UseTls", TBool); (str "Port", TInt)] ++
      texts [str "Host"; str "ClientId"; str "Username"; str "Password"; str "Channel"]));
   (str "Interfaces", TMap (TRecord [(str "Path", TText); (str "Type", TText); (str "Speed", TNatural 64)]));
   (str "Vessel", TRecord (texts [str "Name"; str "Manufacturer"; str "Model"] ++ [(str "Year", TInt); (str "Mmsi", TInt)] ++
      texts [str "Callsign"; str "Registration"; str "Uuid"; str "Uuid0"; str "Uuid1"; str "Uuid2"; str "Uuid3"; str "Uuid4"]))].
Definition package_type : jtype := TRecord (texts [str "Package"; str "Version"]).
Definition command_type : jtype := TRecord [(str "req_type", TText); (str "req_pgn", TNatural 32)].

(** A line in CanBoat's format: the numbers of the header and what the members of "fields" stand
    for. *)
Definition any_value (tag : gj -> Z) (g : gj) (v : gval) : Prop :=
  match g with
  | GNull => v = VNil
  | GStr s => v = VString s
  | GNum t => forall m e, number_text t m e ->
      (exists x, v = VFloat64 x /\ float_is x (nearest64 (ten_to m e))) \/
      (v = VNil /\ bpow radix2 1024 <= Rabs (nearest64 (ten_to m e)))%R
  | _ => v = VOther (tag g)
  end.
Definition line_says (tag : gj -> Z) (ms : list (bytes * gj)) (c : canboat) : Prop :=
  says (a_natural 8) ms (str "prio") 0 (cb_prio c) /\ says (a_natural 8) ms (str "src") 0 (cb_src c) /\
  says (a_natural 8) ms (str "dst") 0 (cb_dst c) /\ says (a_natural 32) ms (str "pgn") 0 (cb_pgn c) /\
  exists o, entries (str "fields") ms o /\
    maps_to (any_value tag) (match o with Some es => es | None => [] end) (cb_fields c).
