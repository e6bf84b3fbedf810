(** What C43 says: exchanging neighbouring elements with different tags. *)
From Coq Require Import String List Relations.Relation_Operators.
From Verif Require Import PyBase Xml Ir IrSem SpecRoundTrip.
Import ListNotations.
Open Scope string_scope.
Open Scope list_scope.

(** Elements whose children the reader goes through in document order whatever their tags are:
    the lists of elements of different kinds (findall(element, "ELEMENTS/*") and the like), the
    elements holding one value of some kind ("VALUE-SPEC/*") and the texts with markup (L-4, E). *)
Definition list_tags : list string := [
  "ABSOLUTELY-SCHEDULED-TIMINGS"; "ANNOTATIONS"; "AR-PACKAGES"; "ARGUMENTS";
  "ARTIFACT-DESCRIPTORS"; "ASSIGNED-DATA-TYPES"; "ASSIGNED-DATAS"; "ASSIGNED-ENTRY-ROLES";
  "ASSIGNED-PORTS"; "AUTHENTICATION-PROPSS"; "BSW-MODULE-DEPENDENCYS"; "BUNDLED-CONNECTIONS";
  "BUS-DEPENDENT-NM-ECUS"; "CALL-POINTS"; "CAN-CONTROLLER-ATTRIBUTES"; "CHOICES";
  "CLIENT-SERVER-PORTS"; "COMM-CONTROLLERS"; "COMMUNICATION-CYCLE"; "COMPONENTS";
  "COMPOUND-PRIMITIVE-ARGUMENTS"; "COMPU-DEFAULT-VALUE"; "CONNECTION-BUNDLES"; "CONNECTORS";
  "CONSTANT-MEMORYS"; "CONSUMED-EVENT-GROUPS"; "CONSUMED-SERVICE-INSTANCES"; "CONTAINERS";
  "COUPLING-PORT-STRUCTURAL-ELEMENTS"; "COUPLING-PORTS"; "DATA-ELEMENTS"; "DATA-MAPPINGS";
  "DATA-PROTOTYPE-TRANSFORMATION-PROPSS"; "DATA-RECEIVE-POINTS"; "DATA-SEND-POINTS";
  "DATA-TRANSFORMATIONS"; "DESTINATION-URI-DEFS"; "DESTINATION-URI-REFS";
  "DIAG-EVENT-DEBOUNCE-ALGORITHM"; "DO-IP-LOGIC-ADDRESSS"; "DOC-REVISIONS";
  "DYNAMIC-PART-ALTERNATIVES"; "DYNAMIC-PARTS"; "E"; "ECU-COMM-PORT-INSTANCES";
  "ECU-RESOURCE-MAPPINGS"; "ELEMENTS"; "END-TO-END-PROTECTION-I-SIGNAL-I-PDUS";
  "END-TO-END-PROTECTION-VARIABLE-PROTOTYPES"; "END-TO-END-PROTECTIONS"; "ENTITYS";
  "ETHERNET-PRIORITY-REGENERATIONS"; "EVENT-HANDLERS"; "EVENTS"; "EXECUTION-TIMES"; "FIELDS";
  "FIRST-ELEMENTS"; "FRAME-TRIGGERINGS"; "FRESHNESS-PROPSS"; "HEAP-USAGES"; "HW-ATTRIBUTE-DEFS";
  "HW-PIN-GROUPS"; "I-SIGNAL-TO-I-PDU-MAPPINGS"; "I-SIGNAL-TRIGGERINGS";
  "INCLUDED-MODE-DECLARATION-GROUP-SETS"; "INIT-VALUE"; "INSTANCES"; "INTERNAL-BEHAVIORS";
  "INTERNAL-TRIGGERING-POINTS"; "INVALID-VALUE"; "KEYWORDS"; "L-4"; "LIFE-CYCLE-INFOS"; "LITERALS";
  "MAC-MULTICAST-GROUPS"; "MAPPINGS"; "MODE-ACCESS-POINTS"; "MODE-DECLARATION-MAPPINGS";
  "MODE-GROUP-IREF"; "MODE-SENDER-POLICYS"; "MODE-SWITCH-EVENT-TRIGGERED-ACTIVITYS";
  "MODE-SWITCH-POINTS"; "MODIFICATIONS"; "MULTIPLICITY-CONFIG-CLASSES";
  "NETWORK-ENDPOINT-ADDRESSES"; "NM-CLUSTER-COUPLINGS"; "NM-CLUSTERS"; "NM-IF-ECUS"; "NM-NODES";
  "NV-DATAS"; "OPERATION-MAPPINGS"; "OPERATIONS"; "ORDERED-ELEMENTS"; "PARAMETER-VALUES";
  "PARAMETERS"; "PDU-TRIGGERINGS"; "PDUS"; "PHYSICAL-CHANNELS"; "PORT-GROUPS";
  "PORT-INTERFACE-MAPPINGS"; "PORTS"; "POSSIBLE-ERROR-REACTIONS"; "POST-BUILD-VARIANT-CONDITIONS";
  "PROVIDED-CLIENT-SERVER-ENTRYS"; "PROVIDED-COM-SPECS"; "PROVIDED-DATAS"; "PROVIDED-MODE-GROUPS";
  "PROVIDED-SERVICE-INSTANCES"; "RAM-BLOCK-INIT-VALUE"; "RECEPTION-POLICYS";
  "RECORD-ELEMENT-MAPPINGS"; "REFERENCE-VALUES"; "REFERENCES"; "REQUIRED-CLIENT-SERVER-ENTRYS";
  "REQUIRED-COM-SPECS"; "REQUIRED-DATAS"; "REQUIRED-MODE-GROUPS"; "REQUIRED-TRIGGERS";
  "ROM-BLOCK-INIT-VALUE"; "RUNNABLES"; "SCHEDULE-TABLES"; "SDGS"; "SECOND-ELEMENTS";
  "SEGMENT-POSITIONS"; "SERVER-CALL-POINTS"; "SERVICE-DEPENDENCYS"; "SERVICE-NEEDS";
  "SOCKET-ADDRESSS"; "STACK-USAGES"; "STATIC-MEMORYS"; "STATIC-PARTS"; "SUB-CONTAINERS";
  "SUB-ELEMENTS"; "SW-CALPRM-AXIS-SET"; "SW-IMPL-MAPPINGS"; "SW-MAPPINGS";
  "SW-SYSTEMCONSTANT-VALUES"; "TABLE-ENTRYS"; "TIMEOUT-SUBSTITUTION-VALUE"; "TIMING-REQUIREMENTS";
  "TP-ADDRESSS"; "TP-CHANNELS"; "TP-CONFIGURATION"; "TP-CONNECTIONS"; "TP-ECUS"; "TP-NODES";
  "TRACED-FAILURES"; "TRANSFORMATION-COM-SPEC-PROPS"; "TRANSFORMATION-COM-SPEC-PROPSS";
  "TRANSFORMATION-DESCRIPTIONS"; "TRANSFORMATION-I-SIGNAL-PROPSS"; "TRANSFORMATION-TECHNOLOGYS";
  "TYPE-MAPPING"; "VALUE"; "VALUE-ACCESS"; "VALUE-CONFIG-CLASSES"; "VALUE-SPEC";
  "VLAN-MEMBERSHIPS"; "WRITING-STRATEGYS"].

(** [exchanged x y]: at one place in the tree [x], not in an element of [list_tags], two
    neighbouring elements with different tags are exchanged, giving [y] *)
Inductive exchanged : xml -> xml -> Prop :=
| exchange_here : forall t a s l k k' r, ~ In t list_tags -> xtag k <> xtag k' ->
    exchanged (El t a s (l ++ k :: k' :: r)) (El t a s (l ++ k' :: k :: r))
| exchange_below : forall t a s l k k' r, exchanged k k' ->
    exchanged (El t a s (l ++ k :: r)) (El t a s (l ++ k' :: r)).

(** any number of exchanges *)
Definition rearranged : xml -> xml -> Prop := clos_refl_trans _ exchanged.

(** a component type with its children in two orders: all of them backwards, those of the port
    too; only the SHORT-NAME of the package stays where it was *)
Definition component_port (back : bool) : xml :=
  let kids := [text_of "SHORT-NAME" "p"; tagged "DESC" [El "L-2" [("L", "EN")] (Some "a port") []];
               ref_to "PROVIDED-INTERFACE-TREF" "SENDER-RECEIVER-INTERFACE" "/if/a"] in
  tagged "P-PORT-PROTOTYPE" (if back then rev kids else kids).
Definition component_xml (back : bool) : xml :=
  let kids := [text_of "SHORT-NAME" "c"; text_of "CATEGORY" "x";
               tagged "ADMIN-DATA" [text_of "LANGUAGE" "EN"; text_of "USED-LANGUAGES" "y"];
               tagged "PORTS" [component_port back; named_xml "R-PORT-PROTOTYPE" "r" []]] in
  tagged "APPLICATION-SW-COMPONENT-TYPE" (if back then rev kids else kids).
(** the same with the two ports exchanged *)
Definition two_ports (back : bool) : xml :=
  let kids := [named_xml "P-PORT-PROTOTYPE" "p" []; named_xml "R-PORT-PROTOTYPE" "r" []] in
  elements_xml [named_xml "APPLICATION-SW-COMPONENT-TYPE" "c" [tagged "PORTS" (if back then rev kids else kids)]].
