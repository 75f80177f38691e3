(** XmlProps: C100, the mapping file. *)
From Coq Require Import ZArith Lia ZifyBool.
From Verif Require Import GoBase NmeaTypes NmeaModel SignalkModel XmlModel XmlSpec XmlLex XmlParse XmlTree XmlDecode MapTable MapText.
Open Scope Z_scope.
Open Scope list_scope.

(** C100: the program takes a mapping file exactly if it is an XML document with the root element
    mappings whose numbers are numbers, and the table it then works with is the one the document
    says; every other file is refused (and the program ends, /repo/main/argo.go:117-120). *)
Theorem C100_loaded : forall wide data t, bytes_ok data -> (parse_mappings wide data = Some t <-> exists x, xml_document wide data x /\ mappings_say x t).
Proof. exact parse_mappings_iff. Qed.
(** A file says one table: the document it is and the table of that document are unique. *)
Theorem C100_one_meaning : forall wide data x x' t t', bytes_ok data -> xml_document wide data x -> xml_document wide data x' -> mappings_say x t -> mappings_say x' t' -> x = x' /\ t = t'.
Proof.
  intros wide data x x' t t' OK D D' M M'. split.
  - apply read_document_iff in D; [|exact OK]. apply read_document_iff in D'; [|exact OK]. congruence.
  - assert (parse_mappings wide data = Some t) by (apply C100_loaded; eauto). assert (parse_mappings wide data = Some t') by (apply C100_loaded; eauto). congruence.
Qed.
(** The shipped mapping file is taken, and says the table [MapXml] that C53 and the other
    theorems about the shipped mappings are about. *)
Lemma shipped_read wide : parse_mappings wide (str map_xml) = Some MapXml.
Proof. vm_compute. reflexivity. Qed.
Lemma bytes_okb s : forallb (fun c => (0 <=? c) && (c <=? 255)) s = true -> bytes_ok s.
Proof. intros H. apply Forall_forall. intros c I. rewrite forallb_forall in H. specialize (H c I). unfold is_byte. lia. Qed.
Theorem C100_shipped : forall wide, exists x, xml_document wide (str map_xml) x /\ mappings_say x MapXml.
Proof. intros wide. apply C100_loaded; [apply bytes_okb; now vm_compute|apply shipped_read]. Qed.

(** Comments, CDATA, references, line ends, name space prefixes and elements the program does
    not know; the second of two paths counts, and white space around numbers does not. *)
Definition sample : bytes := str "<?xml version='1.0' encoding='UTF-8'?><!-- a --><m:mappings xmlns:m='u'><mapping><path>x</path><path>&lt;<![CDATA[a&b]]>&#x41;</path>" ++
  [13; 10] ++ str "<parameter_group note='1'><pgn> 127250
</pgn><fieldset type='a'><field type='b'>-3</field></fieldset><odd><pgn>q</pgn></odd></parameter_group></mapping></m:mappings> rest <".
Example C100_sample : forall wide, bytes_ok sample /\
  parse_mappings wide sample = Some [mkmapping (str "<a&bA") [mkgroup 127250 (mkfs (str "a") [(str "b", -3)]) [] (mkidf [] []) (mkidf [] []) []]].
Proof. intros wide. split; [apply bytes_okb; now vm_compute|now vm_compute]. Qed.
(** Not well formed, and a number that is none. *)
Definition broken1 : bytes := str "<mappings><mapping></mappings></mapping>".
Definition broken2 : bytes := str "<mappings><mapping><parameter_group><pgn>127x</pgn></parameter_group></mapping></mappings>".
Example C100_refused : forall wide, parse_mappings wide broken1 = None /\ parse_mappings wide broken2 = None /\ parse_mappings wide (str "<map/>") = None.
Proof. intros wide. repeat split; now vm_compute. Qed.
