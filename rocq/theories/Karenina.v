(** tests/coappearances: the archive description of generated.rs and the files of
    karenina.archive, as data.  Extracted by a script. *)
From Verif Require Import Base Codec Structs Storage Writers Archives Conformance.
From Coq Require Import String.
Local Open Scope string_scope.
Local Open Scope list_scope.
Local Open Scope Z_scope.

(** * Schemas, generated.rs:4-466 *)
Definition schema_structs_STATISTICS : string := "namespace coappearances {
struct Invariants
{
    max_degree : u32 : 16;
    max_degree_ref : u32 : 16;
    min_degree : u32 : 16;
    min_degree_ref : u32 : 16;
    num_connected_components : u32 : 16;
}
}

namespace coappearances {
struct Degree
{
    value : u32 : 16;
}
}

namespace coappearances {
@bound_implicitly( characters : .coappearances.Graph.vertices, .coappearances.Statistics.vertex_degrees )
archive Statistics
{
    invariants : .coappearances.Invariants;
    vertex_degrees : vector< .coappearances.Degree >;
}
}

".
Definition schema_structs_GRAPH : string := "namespace coappearances {
struct Meta
{
    title_ref : u32 : 32;
    author_ref : u32 : 32;
}
}

namespace coappearances {
struct Character
{
    name_ref : u32 : 32;
}
}

namespace coappearances {
struct Coappearance
{
    a_ref : u32 : 16;
    b_ref : u32 : 16;
    count : u32 : 16;
    first_chapter_ref : u32 : 16;
}
}

namespace coappearances {
struct Nickname
{
    ref : u32 : 32;
}
}

namespace coappearances {
struct Description
{
    ref : u32 : 32;
}
}

namespace coappearances {
struct UnaryRelation
{
    kind_ref : u32 : 32;
    to_ref : u32 : 16;
}
}

namespace coappearances {
struct BinaryRelation
{
    kind_ref : u32 : 32;
    to_a_ref : u32 : 16;
    to_b_ref : u32 : 16;
}
}

namespace coappearances {
struct Chapter
{
    major : u8 : 4;
    minor : u8 : 7;
}
}

namespace coappearances {
struct Invariants
{
    max_degree : u32 : 16;
    max_degree_ref : u32 : 16;
    min_degree : u32 : 16;
    min_degree_ref : u32 : 16;
    num_connected_components : u32 : 16;
}
}

namespace coappearances {
struct Degree
{
    value : u32 : 16;
}
}

namespace coappearances {
@bound_implicitly( characters : .coappearances.Graph.vertices, .coappearances.Statistics.vertex_degrees )
archive Statistics
{
    invariants : .coappearances.Invariants;
    vertex_degrees : vector< .coappearances.Degree >;
}
}

namespace coappearances {
@bound_implicitly( characters : .coappearances.Graph.vertices, .coappearances.Graph.vertices_data )
archive Graph
{
    @explicit_reference( .coappearances.Meta.title_ref, .coappearances.Graph.strings )
    @explicit_reference( .coappearances.Meta.author_ref, .coappearances.Graph.strings )
    meta : .coappearances.Meta;
    @explicit_reference( .coappearances.Character.name_ref, .coappearances.Graph.strings )
    vertices : vector< .coappearances.Character >;
    @explicit_reference( .coappearances.Coappearance.a_ref, .coappearances.Graph.vertices )
    @explicit_reference( .coappearances.Coappearance.b_ref, .coappearances.Graph.vertices )
    @explicit_reference( .coappearances.Coappearance.first_chapter_ref, .coappearances.Graph.chapters )
    edges : vector< .coappearances.Coappearance >;
    @explicit_reference( .coappearances.Nickname.ref, .coappearances.Graph.strings )
    @explicit_reference( .coappearances.Description.ref, .coappearances.Graph.strings )
    @explicit_reference( .coappearances.UnaryRelation.kind_ref, .coappearances.Graph.strings )
    @explicit_reference( .coappearances.UnaryRelation.to_ref, .coappearances.Graph.vertices )
    @explicit_reference( .coappearances.BinaryRelation.kind_ref, .coappearances.Graph.strings )
    @explicit_reference( .coappearances.BinaryRelation.to_a_ref, .coappearances.Graph.vertices )
    @explicit_reference( .coappearances.BinaryRelation.to_b_ref, .coappearances.Graph.vertices )
    vertices_data : multivector< 32, .coappearances.Nickname, .coappearances.Description, .coappearances.UnaryRelation, .coappearances.BinaryRelation >;
    chapters : vector< .coappearances.Chapter >;
    strings : raw_data;
    @optional
    statistics : archive .coappearances.Statistics;
}
}

".
Definition schema_statistics_INVARIANTS : string := "namespace coappearances {
struct Invariants
{
    max_degree : u32 : 16;
    max_degree_ref : u32 : 16;
    min_degree : u32 : 16;
    min_degree_ref : u32 : 16;
    num_connected_components : u32 : 16;
}
}

namespace coappearances {
archive Statistics
{
    invariants : .coappearances.Invariants;
}
}

".
Definition schema_statistics_VERTEX_DEGREES : string := "namespace coappearances {
struct Degree
{
    value : u32 : 16;
}
}

namespace coappearances {
archive Statistics
{
    vertex_degrees : vector< .coappearances.Degree >;
}
}

".
Definition schema_graph_META : string := "namespace coappearances {
struct Meta
{
    title_ref : u32 : 32;
    author_ref : u32 : 32;
}
}

namespace coappearances {
archive Graph
{
    @explicit_reference( .coappearances.Meta.title_ref, .coappearances.Graph.strings )
    @explicit_reference( .coappearances.Meta.author_ref, .coappearances.Graph.strings )
    meta : .coappearances.Meta;
}
}

".
Definition schema_graph_VERTICES : string := "namespace coappearances {
struct Character
{
    name_ref : u32 : 32;
}
}

namespace coappearances {
archive Graph
{
    @explicit_reference( .coappearances.Character.name_ref, .coappearances.Graph.strings )
    vertices : vector< .coappearances.Character >;
}
}

".
Definition schema_graph_EDGES : string := "namespace coappearances {
struct Coappearance
{
    a_ref : u32 : 16;
    b_ref : u32 : 16;
    count : u32 : 16;
    first_chapter_ref : u32 : 16;
}
}

namespace coappearances {
archive Graph
{
    @explicit_reference( .coappearances.Coappearance.a_ref, .coappearances.Graph.vertices )
    @explicit_reference( .coappearances.Coappearance.b_ref, .coappearances.Graph.vertices )
    @explicit_reference( .coappearances.Coappearance.first_chapter_ref, .coappearances.Graph.chapters )
    edges : vector< .coappearances.Coappearance >;
}
}

".
Definition schema_graph_CHAPTERS : string := "namespace coappearances {
struct Chapter
{
    major : u8 : 4;
    minor : u8 : 7;
}
}

namespace coappearances {
archive Graph
{
    chapters : vector< .coappearances.Chapter >;
}
}

".
Definition schema_graph_VERTICES_DATA : string := "namespace coappearances {
struct Nickname
{
    ref : u32 : 32;
}
}

namespace coappearances {
struct Description
{
    ref : u32 : 32;
}
}

namespace coappearances {
struct UnaryRelation
{
    kind_ref : u32 : 32;
    to_ref : u32 : 16;
}
}

namespace coappearances {
struct BinaryRelation
{
    kind_ref : u32 : 32;
    to_a_ref : u32 : 16;
    to_b_ref : u32 : 16;
}
}

namespace coappearances {
archive Graph
{
    @explicit_reference( .coappearances.Nickname.ref, .coappearances.Graph.strings )
    @explicit_reference( .coappearances.Description.ref, .coappearances.Graph.strings )
    @explicit_reference( .coappearances.UnaryRelation.kind_ref, .coappearances.Graph.strings )
    @explicit_reference( .coappearances.UnaryRelation.to_ref, .coappearances.Graph.vertices )
    @explicit_reference( .coappearances.BinaryRelation.kind_ref, .coappearances.Graph.strings )
    @explicit_reference( .coappearances.BinaryRelation.to_a_ref, .coappearances.Graph.vertices )
    @explicit_reference( .coappearances.BinaryRelation.to_b_ref, .coappearances.Graph.vertices )
    vertices_data : multivector< 32, .coappearances.Nickname, .coappearances.Description, .coappearances.UnaryRelation, .coappearances.BinaryRelation >;
}
}

".
Definition schema_graph_STRINGS : string := "namespace coappearances {
archive Graph
{
    strings : raw_data;
}
}

".

(** * Structs, generated.rs:468-582 *)
Definition s_Meta := mkStruct 8 [mkField U32 0 32; mkField U32 32 32].
Definition s_Character := mkStruct 4 [mkField U32 0 32].
Definition s_Coappearance := mkStruct 8 [mkField U32 0 16; mkField U32 16 16; mkField U32 32 16; mkField U32 48 16].
Definition s_Nickname := mkStruct 4 [mkField U32 0 32].
Definition s_Description := mkStruct 4 [mkField U32 0 32].
Definition s_UnaryRelation := mkStruct 6 [mkField U32 0 32; mkField U32 32 16].
Definition s_BinaryRelation := mkStruct 8 [mkField U32 0 32; mkField U32 32 16; mkField U32 48 16].
Definition s_Chapter := mkStruct 2 [mkField U8 0 4; mkField U8 4 7].
Definition s_Invariants := mkStruct 10 [mkField U32 0 16; mkField U32 16 16; mkField U32 32 16; mkField U32 48 16; mkField U32 64 16].
Definition s_Degree := mkStruct 2 [mkField U32 0 16].

(** * Archives, generated.rs:586-633; IndexType32 has 4 bytes and 32 bits *)
Definition s_VerticesData : vdesc := [(0, s_Nickname); (1, s_Description); (2, s_UnaryRelation); (3, s_BinaryRelation)].
Definition Statistics := mkArchive "Statistics" (str schema_structs_STATISTICS)
  [mkTyped "invariants" s_Invariants (str schema_statistics_INVARIANTS) false]
  [mkTyped "vertex_degrees" s_Degree (str schema_statistics_VERTEX_DEGREES) false] [] [] [].
Definition Graph := mkArchive "Graph" (str schema_structs_GRAPH)
  [mkTyped "meta" s_Meta (str schema_graph_META) false]
  [mkTyped "vertices" s_Character (str schema_graph_VERTICES) false;
   mkTyped "edges" s_Coappearance (str schema_graph_EDGES) false;
   mkTyped "chapters" s_Chapter (str schema_graph_CHAPTERS) false]
  [mkMulti "vertices_data" s_VerticesData (str schema_graph_VERTICES_DATA) "vertices_data_index" 4 32 false]
  [mkRaw "strings" (str schema_graph_STRINGS) false]
  [("statistics", Statistics, true)].

(** * The files of karenina.archive *)
Definition bytes (l : list string) : list Z := List.concat (map hex l).
Definition karenina_files : list (string * list string) := [
  ("Graph.archive", [
    "00000000000000000000000000000000"]);
  ("Graph.archive.schema", [
    "6e616d65737061636520636f617070656172616e636573207b0a737472756374204d6574610a7b0a";
    "202020207469746c655f726566203a20753332203a2033323b0a20202020617574686f725f726566";
    "203a20753332203a2033323b0a7d0a7d0a0a6e616d65737061636520636f617070656172616e6365";
    "73207b0a737472756374204368617261637465720a7b0a202020206e616d655f726566203a207533";
    "32203a2033323b0a7d0a7d0a0a6e616d65737061636520636f617070656172616e636573207b0a73";
    "747275637420436f617070656172616e63650a7b0a20202020615f726566203a20753332203a2031";
    "363b0a20202020625f726566203a20753332203a2031363b0a20202020636f756e74203a20753332";
    "203a2031363b0a2020202066697273745f636861707465725f726566203a20753332203a2031363b";
    "0a7d0a7d0a0a6e616d65737061636520636f617070656172616e636573207b0a737472756374204e";
    "69636b6e616d650a7b0a20202020726566203a20753332203a2033323b0a7d0a7d0a0a6e616d6573";
    "7061636520636f617070656172616e636573207b0a737472756374204465736372697074696f6e0a";
    "7b0a20202020726566203a20753332203a2033323b0a7d0a7d0a0a6e616d65737061636520636f61";
    "7070656172616e636573207b0a73747275637420556e61727952656c6174696f6e0a7b0a20202020";
    "6b696e645f726566203a20753332203a2033323b0a20202020746f5f726566203a20753332203a20";
    "31363b0a7d0a7d0a0a6e616d65737061636520636f617070656172616e636573207b0a7374727563";
    "742042696e61727952656c6174696f6e0a7b0a202020206b696e645f726566203a20753332203a20";
    "33323b0a20202020746f5f615f726566203a20753332203a2031363b0a20202020746f5f625f7265";
    "66203a20753332203a2031363b0a7d0a7d0a0a6e616d65737061636520636f617070656172616e63";
    "6573207b0a73747275637420436861707465720a7b0a202020206d616a6f72203a207538203a2034";
    "3b0a202020206d696e6f72203a207538203a20373b0a7d0a7d0a0a6e616d65737061636520636f61";
    "7070656172616e636573207b0a73747275637420496e76617269616e74730a7b0a202020206d6178";
    "5f646567726565203a20753332203a2031363b0a202020206d61785f6465677265655f726566203a";
    "20753332203a2031363b0a202020206d696e5f646567726565203a20753332203a2031363b0a2020";
    "20206d696e5f6465677265655f726566203a20753332203a2031363b0a202020206e756d5f636f6e";
    "6e65637465645f636f6d706f6e656e7473203a20753332203a2031363b0a7d0a7d0a0a6e616d6573";
    "7061636520636f617070656172616e636573207b0a737472756374204465677265650a7b0a202020";
    "2076616c7565203a20753332203a2031363b0a7d0a7d0a0a6e616d65737061636520636f61707065";
    "6172616e636573207b0a40626f756e645f696d706c696369746c7928206368617261637465727320";
    "3a202e636f617070656172616e6365732e47726170682e76657274696365732c202e636f61707065";
    "6172616e6365732e537461746973746963732e7665727465785f6465677265657320290a61726368";
    "69766520537461746973746963730a7b0a20202020696e76617269616e7473203a202e636f617070";
    "656172616e6365732e496e76617269616e74733b0a202020207665727465785f6465677265657320";
    "3a20766563746f723c202e636f617070656172616e6365732e446567726565203e3b0a7d0a7d0a0a";
    "6e616d65737061636520636f617070656172616e636573207b0a40626f756e645f696d706c696369";
    "746c79282063686172616374657273203a202e636f617070656172616e6365732e47726170682e76";
    "657274696365732c202e636f617070656172616e6365732e47726170682e76657274696365735f64";
    "61746120290a617263686976652047726170680a7b0a20202020406578706c696369745f72656665";
    "72656e636528202e636f617070656172616e6365732e4d6574612e7469746c655f7265662c202e63";
    "6f617070656172616e6365732e47726170682e737472696e677320290a20202020406578706c6963";
    "69745f7265666572656e636528202e636f617070656172616e6365732e4d6574612e617574686f72";
    "5f7265662c202e636f617070656172616e6365732e47726170682e737472696e677320290a202020";
    "206d657461203a202e636f617070656172616e6365732e4d6574613b0a20202020406578706c6963";
    "69745f7265666572656e636528202e636f617070656172616e6365732e4368617261637465722e6e";
    "616d655f7265662c202e636f617070656172616e6365732e47726170682e737472696e677320290a";
    "202020207665727469636573203a20766563746f723c202e636f617070656172616e6365732e4368";
    "61726163746572203e3b0a20202020406578706c696369745f7265666572656e636528202e636f61";
    "7070656172616e6365732e436f617070656172616e63652e615f7265662c202e636f617070656172";
    "616e6365732e47726170682e766572746963657320290a20202020406578706c696369745f726566";
    "6572656e636528202e636f617070656172616e6365732e436f617070656172616e63652e625f7265";
    "662c202e636f617070656172616e6365732e47726170682e766572746963657320290a2020202040";
    "6578706c696369745f7265666572656e636528202e636f617070656172616e6365732e436f617070";
    "656172616e63652e66697273745f636861707465725f7265662c202e636f617070656172616e6365";
    "732e47726170682e636861707465727320290a202020206564676573203a20766563746f723c202e";
    "636f617070656172616e6365732e436f617070656172616e6365203e3b0a20202020406578706c69";
    "6369745f7265666572656e636528202e636f617070656172616e6365732e4e69636b6e616d652e72";
    "65662c202e636f617070656172616e6365732e47726170682e737472696e677320290a2020202040";
    "6578706c696369745f7265666572656e636528202e636f617070656172616e6365732e4465736372";
    "697074696f6e2e7265662c202e636f617070656172616e6365732e47726170682e737472696e6773";
    "20290a20202020406578706c696369745f7265666572656e636528202e636f617070656172616e63";
    "65732e556e61727952656c6174696f6e2e6b696e645f7265662c202e636f617070656172616e6365";
    "732e47726170682e737472696e677320290a20202020406578706c696369745f7265666572656e63";
    "6528202e636f617070656172616e6365732e556e61727952656c6174696f6e2e746f5f7265662c20";
    "2e636f617070656172616e6365732e47726170682e766572746963657320290a2020202040657870";
    "6c696369745f7265666572656e636528202e636f617070656172616e6365732e42696e6172795265";
    "6c6174696f6e2e6b696e645f7265662c202e636f617070656172616e6365732e47726170682e7374";
    "72696e677320290a20202020406578706c696369745f7265666572656e636528202e636f61707065";
    "6172616e6365732e42696e61727952656c6174696f6e2e746f5f615f7265662c202e636f61707065";
    "6172616e6365732e47726170682e766572746963657320290a20202020406578706c696369745f72";
    "65666572656e636528202e636f617070656172616e6365732e42696e61727952656c6174696f6e2e";
    "746f5f625f7265662c202e636f617070656172616e6365732e47726170682e766572746963657320";
    "290a2020202076657274696365735f64617461203a206d756c7469766563746f723c2033322c202e";
    "636f617070656172616e6365732e4e69636b6e616d652c202e636f617070656172616e6365732e44";
    "65736372697074696f6e2c202e636f617070656172616e6365732e556e61727952656c6174696f6e";
    "2c202e636f617070656172616e6365732e42696e61727952656c6174696f6e203e3b0a2020202063";
    "68617074657273203a20766563746f723c202e636f617070656172616e6365732e43686170746572";
    "203e3b0a20202020737472696e6773203a207261775f646174613b0a20202020406f7074696f6e61";
    "6c0a2020202073746174697374696373203a2061726368697665202e636f617070656172616e6365";
    "732e537461746973746963733b0a7d0a7d0a0a"]);
  ("chapters", [
    "7e0a000000000000d101b201f300030136019701b701d7013601d70197016800780026006600e500";
    "05012600660076006800780023006600a101e200a101b101c200e20012012300e301f301e5000501";
    "260066001801e500f30126006600e20012016600e101f1011102a200b201b201c201d20172009200";
    "d300730114001401340144014400e50186013401a200c201d201720034015501a400c40064009400";
    "34015501e501570167019400a400c400940014015501650137019400a20165018501950157016701";
    "94007200a400c4009400a4009400b20134016501b501e5013701e501a201b201550173016400a400";
    "c40064016400840094005501170127013701370157016701a400c4009400f101a200720014012400";
    "c40094001401f5013601f6010602b701a200c201d20142007200130123013401c501210131014101";
    "5101c10116012601360136014601660176018601c701e501e701a500b500c500d500750095003101";
    "a70077014101510161017101c701d5016101a7009700610101027200230123013400b701f701f300";
    "a500b500c500d5001301720023010502b701d701e701f70101021102b201f300d501e501e501b201";
    "23012301150223012101410151016101c101d1015401a70016014601660131011301230105020502";
    "46016601a7009700160146016601f601060221015101610161017101e101f101a200b20062017201";
    "42007200f300630114001401240074013400a500b500c500d500c501c501f5010502050215027500";
    "85009500160126014601660196010602c7007701870197019701a701230115021601260146016601";
    "9701c50161017101f501050215029701830083008300120222022202120222023601f601f700f700";
    "07011801280168007800f700070118012801f700f700f70007012202220257004701570167002301";
    "13016200720064004701230123012301c2015401550147011301a20042005200620072007401c501";
    "2301450045007400610153015301530153015500e100710104014500e10045005500e100e1007101";
    "e100710171018201520182014800150221012800c50115022101c5011502280031014101a3008300";
    "e800f800180183008300610041014101510122003200b400940045001600e600260066007600e700";
    "f700c7016800a4009400550016006600e800f800f800e80018016100a300c3009300b400e4009400";
    "4500e600f6000601260066007600e700f700d800f800180183009300e700f70021009400f800f600";
    "e600610055008300e700f700a400940041007300830093002200a4009400e800f80068002200e600";
    "26006600e700f700110041015101c10141007300a400640094004500e60066007600160146016601";
    "31014101a300a300830083008300e8001801450046016601a400b40094001600f600660016014601";
    "660116012601460156016601e60016012601460166017600c40094003401e501e501e501e701d301";
    "b800770087007700870077007700770087007700a500b500c500d500a500b500c500d50075009500";
    "8300410156005600e800f800f800e800180156006600f8001801f800f60056008300e800f8003100";
    "6600310141013100a3008300e800180156006600510051005100a700a700a7007701830083008300";
    "8300e600a101d200d301e8005701670157016701210221022102f5002700e4002500f50061006100";
    "52002500c6012500e40052005200940016001600560066002801680028016800f500d100e1009100";
    "91009100b400d400d400f4000401040194001500e500050115011501250135012500450145004500";
    "450065001600e6002600a601360056006600760086001700b700d700e700f7000701670018012801";
    "28013801e700f700940017004500910004015600e201150125014501e500e20112022202d600e600";
    "3500e201f2011501250145019100e700f7009400e100f1002200e20122022202220222023202d400";
    "f40004019400650017006800c100e100f10061017101910012002200e201f201f201020212022202";
    "3202f400040125001600e600260036006600e700f700070112022202e20102023202410151019100";
    "94004500e6007600410145006500b40094001600e201f20102021202220232021600160056006600";
    "c100e1006101710171011700e6007600610161017101d40094002500f8000801280128003800e800";
    "680063007100810013002300330043006300d40004019400150025001600a601b601c601e6015600";
    "66000701f8000801280198009400f8005600e601a400c400d4009400a40094000701e800f8000801";
    "180166002500a400c40094002500b601d601e601660007012800e400b601d601e601e8002500a400";
    "c4009400160016001600460056006600d601e60158009400e501a501240181019101810191018101";
    "910125003700f80008012801f8003700f800080178002800250092018201920118016101e8006101";
    "e800180161013701a101e200630025003500b700d7002700e20035009300d700e700f70047009400";
    "f80053009100f4000401f6005600810191011501250145013700b301e500e600a301610047005700";
    "670081019101c200f3010302150125014501510091000302a301e601b300e700f700d40094005700";
    "9300e100d400f400040194006500070177008700f8000801e1009100f400040115002500e6002600";
    "360066007600e700f700070153000201b301d601a100b10051009100e200f20002011201e4007400";
    "9400150035004500a600b600d600e600f600b601e6016600760086009600a700b700070167007700";
    "87009700d301a301b301c3010401b601d601e6016700a101a30018012500450065004300b4009400";
    "16007700a101d2008301d3013300e301430077001600560066007600a700e100e60177008700a600";
    "b600d600e600f6006600760086009600e400d4009400770065016101570167016101550055009300";
    "8300230123012301230123012301e700f700e700f700610047009400210094002100310041009400";
    "9400940017001700f30082019201a500a500b500c500d500f8005300560081019101e201f2012501";
    "4501f201b301b30121002202e2010202120222027400e600e600e6001301470162007200a301a301";
    "5500a501f201f20183005100a3015500e601f601e601f601e601f6014701e700f700a4009400a400";
    "c4009400a400c40094009400210083002301230123010502050247016701c100e100f10012002200";
    "e20122023202f40004012202e2013202a40094000701e8006500a400940022023202e10017009400";
    "e201020232029100e600f2010202320266007600c100e1007101e600660061012102530152002102";
    "420152003301530142015301020232020201a501b501e501370121022301230115022301b301d601";
    "250015021502a7015301150253012301b601d601e601f601310066004500a400c400940077001701";
    "7700a7001101210161018201d601e601f601770087002800a600b600d600e6006600760086009600";
    "9400770046016601160146016601160146016601d601e601f601160146016601a101460166010502";
    "0502460166014601660105027700160077009400770024017401c501150252007700770066001601";
    "460166010602160146016601160126014601660197018201c501150261013201420192015301f501";
    "05021502970177008700150297010000000000000000"]);
  ("chapters.schema", [
    "6e616d65737061636520636f617070656172616e636573207b0a7374727563742043686170746572";
    "0a7b0a202020206d616a6f72203a207538203a20343b0a202020206d696e6f72203a207538203a20";
    "373b0a7d0a7d0a0a6e616d65737061636520636f617070656172616e636573207b0a617263686976";
    "652047726170680a7b0a202020206368617074657273203a20766563746f723c202e636f61707065";
    "6172616e6365732e43686170746572203e3b0a7d0a7d0a0a"]);
  ("edges", [
    "700f0000000000000000030008000000000013000100080000006000010009000000810001000a00";
    "0100070002000b000100130002000d000100250007000f00010026000200160001002d0002001800";
    "01002e000d001a00010043000100270001004d000100280001005d000200290001006f0002002b00";
    "01007e0001002d000200030013002e00020006000100410002000c00060042000200130004004800";
    "0200140002004c000200150001004e000200220002004f0002002500010051000200260003005200";
    "020027000100550002002c000300560002002e000100590002002f0006005a000200350001006000";
    "0200490001006100020057000300620002005c000200650002006500060067000200670001006d00";
    "0200680003006e00020069000200710002006f000d00730002007800030080000200810005008300";
    "02008800020088000300060006008a0003000c00090090000300120001009900030013000d009a00";
    "030015000100a700030016000100a80003001a000600a90003001b000100af0003001d000200b000";
    "030025000500b200030027000100b70003002b000100b80003002e000200b90003002f000300bb00";
    "030032000300be00030037000200c100030039000100c30003003b000400c400030048000100c800";
    "030049000100c900030059000100ca0003005a000100cb00030060000400cc00030065000600d000";
    "030067000100d600030068000100d700030069000300d80003006e000100db0003006f000800dc00";
    "030071000300e400030073000100e700030077000600e80003007f000200ee00030080000500f000";
    "030081002d00f5000300820001002201030083000500230103008400010028010300850001002901";
    "0300870002002a010300890004002c01040013000100300104003100010031010400730001003201";
    "050025000200330105005c000100350105005f000200360106001300010038010600800001003901";
    "0700130001003a010700250006003b0107002e000400410107003300010045010700560001004601";
    "07005d0002004701080025000100490108005c0001004a0109002e0001004b010a006f0002004c01";
    "0b002e0001004e010c00320001004f010c004800010050010c004900040051010c00590001005501";
    "0c006900010056010c006e00010057010c006f00040058010c00770001005c010c00810007005d01";
    "0c008200010064010d002500010065010d002e00010066010d006f00010067010e00870001006801";
    "0f005e00010069010f006c0001006a010f00810001006b010f00890001006c011000130001006d01";
    "1000250004006e0110002e000200720110004b000100740110005c000100750110005d0002007601";
    "10008100020078011000870001007a0111003a0001007b011100810002007c011200260001007e01";
    "12006b0001007f0112006f00020080011200790002008201120081000400840113001b0007008801";
    "13001e0002008f0113002400010091011300250011009201130026000700a301130029000100aa01";
    "13002b000200ab0113002e001300ad01130031000200c001130033000200c201130035000200c401";
    "13003c000100c60113003f000100c701130047000100c80113004b000200c90113004e000100cb01";
    "130056000200cc01130057000200ce01130058000400d00113005c000600d40113005d000600da01";
    "13006f000d00e001130071000300ed01130073000900f001130075000100f901130077000200fa01";
    "130078000300fc0113007e000300ff01130080000300020213008100050005021300830006000a02";
    "1300880002001002140065000100120215002c000100130215006500010014021500670001001502";
    "160060000100160217002e000100170218002e000100180219002e000200190219006f0002001b02";
    "1900780001001d0219007d0001001e021900810002001f0219008900010021021a003b0004002202";
    "1a008100060026021b001e0001002c021b00250002002d021b00260003002f021b00290001003202";
    "1b002b00020033021b002e00040035021b003c00010039021b003f0002003a021b004e0001003c02";
    "1b005c0002003d021b006f0002003f021b007300070041021b007e00010048021b00830001004902";
    "1c002e0001004a021c004f0001004b021c006f0001004c021d002e0001004d021d006f0001004e02";
    "1d007f0001004f021d008100010050021e004e00010051021e005800010052021e00730003005302";
    "1f002e000200560220002e000100580221002e000100590222002f0002005a0222006f0002005c02";
    "23005e0001005e022300660001005f02230081000100600224002500020061022400260002006302";
    "24002d000100650224002e000100660224004b000100670224005e000100680224006b0001006902";
    "24006d0001006a0224006f0001006b022400710001006c0224007a0001006d022400810001006e02";
    "2500260007006f02250029000100760225002b000100770225002d000100780225002e002d007902";
    "250033000200a602250035000100a802250036000100a902250038000100aa0225003e000200ab02";
    "25003f000100ad02250040000400ae02250043000100b202250045000300b302250047000200b602";
    "25004b000100b80225004d000500b902250050000100be02250056000200bf02250057000100c102";
    "25005c001000c20225005d001a00d20225005f000200ec02250062000300ee0225006f000700f102";
    "250073000100f802250075000200f902250078000300fb0225007e000a00fe022500810006000803";
    "2500830002000e0325008700030010032500880002001303260029000600150326002b0002001b03";
    "26002d0001001d0326002e0018001e03260035000100360326003c000100370326003f0001003803";
    "26005300010039032600570004003a0326005c0007003e0326005d000100450326006b0001004603";
    "26006f000a0047032600710004005103260073000100550326007500010056032600780004005703";
    "26007e0005005b032600810003006003260088000100630327002c00010064032700650001006503";
    "270081000100660328002e0002006703280040000200690328004d0002006b0329002e0005006d03";
    "29003c0001007203290041000100730329005c000300740329006f00010077032900750001007803";
    "2a003a00010079032a00810002007a032b002e0001007c032b002f0001007d032b005c0001007e03";
    "2b006f0001007f032b007300020080032b008100010082032c006f00010083032d002e0008008403";
    "2d006f0002008c032e00310001008e032e00330003008f032e003400010092032e00350001009303";
    "2e003c00010094032e003d00010095032e003e00030096032e003f00020099032e00400005009b03";
    "2e0041000100a0032e0042000100a1032e0043000100a2032e0047000100a3032e004a000100a403";
    "2e004b000400a5032e004d000800a9032e004f000100b1032e0050000200b2032e0051000100b403";
    "2e0053000100b5032e0054000100b6032e0056000200b7032e0057000300b9032e0058000100bc03";
    "2e005c000b00bd032e005d000e00c8032e0061000100d6032e0063000100d7032e006a000200d803";
    "2e006f002000da032e0070000100fa032e0071000800fb032e007200010003042e00730002000404";
    "2e007500030006042e007600010009042e00780004000a042e007b0007000e042e007d0001001504";
    "2e007e00040016042e007f0001001a042e00810004001b042e00830009001f042e00860001002804";
    "2e008800020029042e00890001002b042f00650001002c042f006f0003002d042f00810001003004";
    "30007400010031043000870001003204310058000100330431007300010034043200590001003504";
    "320069000200360432006e000100380432007700010039043200820001003a043300560002003b04";
    "33005d0002003d0434004b0002003f043500570001004104350058000100420435005c0001004304";
    "35006f00040044043500780001004804350088000100490436005c0001004a043600810001004b04";
    "3900650001004c043a00810002004d043b00640001004f043b008100040050043c005c0001005404";
    "3d006100010055043f007e000100560440004d000600570440007e0001005d0442006a0001005e04";
    "4200710001005f0444006f000100600445005c000100610445007e000400620446006f0001006604";
    "47005d000100670447006f000100680447008300010069044800770001006a0449006f0001006b04";
    "4900810002006c044a00510001006e044a00710001006f044b006f00010070044c00650001007104";
    "4d005d00010072044d007e00010073044e007300010074044f006f00010075045100710001007604";
    "52005c000100770453006f00020078045300710002007a045300810002007c0455006f0001007e04";
    "56005d0002007f0457005c000200810457006f000300830457007800030086045700880001008904";
    "58006f0001008a045800730001008b045900690001008c0459006e0001008d045900820001008e04";
    "5a00770001008f045a008100010090045b006f00020091045c005d000a0093045c005f0001009d04";
    "5c00620002009e045c006f000300a0045c0073000100a3045c0075000100a4045c0078000200a504";
    "5c007e000200a7045c0081000200a9045c0088000100ab045d0062000300ac045d006f000200af04";
    "5d007e000500b1045d0081000300b6045d0083000200b9045d0087000100bb045e0066000100bc04";
    "5e006c000100bd045e007a000100be045e0081000500bf045e0089000200c40462007e000200c604";
    "63006f000100c804650067000300c90465006f000100cc04660081000100cd0469006e000100ce04";
    "690077000100cf04690081000100d004690082000100d1046a0071000200d2046b006f000100d404";
    "6b0079000100d5046b0081000200d6046c0081000200d8046c0089000100da046e0082000100db04";
    "6f0071000400dc046f0073000200e0046f0075000100e2046f0078000400e3046f007c000100e704";
    "6f007d000100e8046f007f000100e9046f0081000a00ea046f0083000800f4046f0088000100fc04";
    "6f0089000100fd04710077000200fe04710080000300000571008100060003057100830003000905";
    "72007b0001000c057700800002000d057700810004000f0577008300020013057700890001001505";
    "78007d000100160578007e0001001705780081000100180578008800010019057800890001001a05";
    "7900810004001b057a00810001001f057d008100010020057d008900010021057e00830001002205";
    "800081000400230580008300030027058100830004002a058100840001002e058100850003002f05";
    "8100870001003205810089000a0033058300890001003d058400890001003e05ffffffff00003f05";
    "0000000000000000"]);
  ("edges.schema", [
    "6e616d65737061636520636f617070656172616e636573207b0a73747275637420436f6170706561";
    "72616e63650a7b0a20202020615f726566203a20753332203a2031363b0a20202020625f72656620";
    "3a20753332203a2031363b0a20202020636f756e74203a20753332203a2031363b0a202020206669";
    "7273745f636861707465725f726566203a20753332203a2031363b0a7d0a7d0a0a6e616d65737061";
    "636520636f617070656172616e636573207b0a617263686976652047726170680a7b0a2020202040";
    "6578706c696369745f7265666572656e636528202e636f617070656172616e6365732e436f617070";
    "656172616e63652e615f7265662c202e636f617070656172616e6365732e47726170682e76657274";
    "6963657320290a20202020406578706c696369745f7265666572656e636528202e636f6170706561";
    "72616e6365732e436f617070656172616e63652e625f7265662c202e636f617070656172616e6365";
    "732e47726170682e766572746963657320290a20202020406578706c696369745f7265666572656e";
    "636528202e636f617070656172616e6365732e436f617070656172616e63652e66697273745f6368";
    "61707465725f7265662c202e636f617070656172616e6365732e47726170682e6368617074657273";
    "20290a202020206564676573203a20766563746f723c202e636f617070656172616e6365732e436f";
    "617070656172616e6365203e3b0a7d0a7d0a0a"]);
  ("meta", [
    "0800000000000000000000002a0000000000000000000000"]);
  ("meta.schema", [
    "6e616d65737061636520636f617070656172616e636573207b0a737472756374204d6574610a7b0a";
    "202020207469746c655f726566203a20753332203a2033323b0a20202020617574686f725f726566";
    "203a20753332203a2033323b0a7d0a7d0a0a6e616d65737061636520636f617070656172616e6365";
    "73207b0a617263686976652047726170680a7b0a20202020406578706c696369745f726566657265";
    "6e636528202e636f617070656172616e6365732e4d6574612e7469746c655f7265662c202e636f61";
    "7070656172616e6365732e47726170682e737472696e677320290a20202020406578706c69636974";
    "5f7265666572656e636528202e636f617070656172616e6365732e4d6574612e617574686f725f72";
    "65662c202e636f617070656172616e6365732e47726170682e737472696e677320290a202020206d";
    "657461203a202e636f617070656172616e6365732e4d6574613b0a7d0a7d0a0a"]);
  ("statistics/Statistics.archive", [
    "00000000000000000000000000000000"]);
  ("statistics/Statistics.archive.schema", [
    "6e616d65737061636520636f617070656172616e636573207b0a73747275637420496e7661726961";
    "6e74730a7b0a202020206d61785f646567726565203a20753332203a2031363b0a202020206d6178";
    "5f6465677265655f726566203a20753332203a2031363b0a202020206d696e5f646567726565203a";
    "20753332203a2031363b0a202020206d696e5f6465677265655f726566203a20753332203a203136";
    "3b0a202020206e756d5f636f6e6e65637465645f636f6d706f6e656e7473203a20753332203a2031";
    "363b0a7d0a7d0a0a6e616d65737061636520636f617070656172616e636573207b0a737472756374";
    "204465677265650a7b0a2020202076616c7565203a20753332203a2031363b0a7d0a7d0a0a6e616d";
    "65737061636520636f617070656172616e636573207b0a40626f756e645f696d706c696369746c79";
    "282063686172616374657273203a202e636f617070656172616e6365732e47726170682e76657274";
    "696365732c202e636f617070656172616e6365732e537461746973746963732e7665727465785f64";
    "65677265657320290a6172636869766520537461746973746963730a7b0a20202020696e76617269";
    "616e7473203a202e636f617070656172616e6365732e496e76617269616e74733b0a202020207665";
    "727465785f64656772656573203a20766563746f723c202e636f617070656172616e6365732e4465";
    "67726565203e3b0a7d0a7d0a0a"]);
  ("statistics/invariants", [
    "0a0000000000000047002e000100090001000000000000000000"]);
  ("statistics/invariants.schema", [
    "6e616d65737061636520636f617070656172616e636573207b0a73747275637420496e7661726961";
    "6e74730a7b0a202020206d61785f646567726565203a20753332203a2031363b0a202020206d6178";
    "5f6465677265655f726566203a20753332203a2031363b0a202020206d696e5f646567726565203a";
    "20753332203a2031363b0a202020206d696e5f6465677265655f726566203a20753332203a203136";
    "3b0a202020206e756d5f636f6e6e65637465645f636f6d706f6e656e7473203a20753332203a2031";
    "363b0a7d0a7d0a0a6e616d65737061636520636f617070656172616e636573207b0a617263686976";
    "6520537461746973746963730a7b0a20202020696e76617269616e7473203a202e636f6170706561";
    "72616e6365732e496e76617269616e74733b0a7d0a7d0a0a"]);
  ("statistics/vertex_degrees", [
    "140100000000000004000b0019002b00030003000400070002000100010001000c00030001000400";
    "08000200060028000200050002000100010006000300100003000500050001000100010003000300";
    "0d002c001b00050003000a0002000b000400060047000700020005000700060002000b0003000100";
    "01000200030004000600020002000600050002000300030001000300010006000300050003000700";
    "010007000400030002000300010005000100010006000a0007000600030001001b00120008000300";
    "030002000400020001000a00030004000200090003000600040001000600320001000f0002000e00";
    "0100070001000c000f00030003000200010006000f00040007002f0006000e000300020001000700";
    "0a000d000000000000000000"]);
  ("statistics/vertex_degrees.schema", [
    "6e616d65737061636520636f617070656172616e636573207b0a737472756374204465677265650a";
    "7b0a2020202076616c7565203a20753332203a2031363b0a7d0a7d0a0a6e616d6573706163652063";
    "6f617070656172616e636573207b0a6172636869766520537461746973746963730a7b0a20202020";
    "7665727465785f64656772656573203a20766563746f723c202e636f617070656172616e6365732e";
    "446567726565203e3b0a7d0a7d0a0a"]);
  ("strings", [
    "460f000000000000416e6e61204b6172656e696e612028d090d0bdd0bdd0b020d09ad0b0d180d0b5";
    "d0bdd0b8d0bdd0b029004c656f20546f6c73746f792028d09bd0b5d0b220d09dd0b8d0bad0bed0bb";
    "d0b0d0b5d0b2d0b8d18720d0a2d0bed0bbd181d182d0bed0b92900416e6e7573686b61006d616964";
    "00416761666561204d6968616c6f766e6100686f7573656b656570657200416c6578657920416c65";
    "78616e64726f7669746368204b6172656e696e006d696e6973746572206f6620737461746500416e";
    "6e612041726b61647965766e61204b6172656e696e61007769666500416c696f73686100736f6e00";
    "416e6e61205061766c6f766e61007769666500416e6e6965006261627900446d69747269004d6974";
    "79610062616279004d6164616d652042657274686500626c696e6420776f6d616e00436f756e7420";
    "426f6c00667269656e6420696e204d6f73636f7700426172746e79616e736b790072696368206d61";
    "6e20696e205065746572736275726700436f756e7465737320426f6c610077696665005072696e63";
    "6573732042657473792054766572736b61796100636f7573696e00436f756e7420416e697463686b";
    "696e0073757065727669736f7200436f756e7465737320426f6e696e610064616e63652070617274";
    "6e657200436f6c6f6e656c2044656d696e00636f6c6c656167756500436f756e74657373204e6f72";
    "6473746f6e00667269656e6400436f726400456e676c69736820686f72736520747261696e657200";
    "436f756e746573732056726f6e736b617961006d6f74686572005072696e63657373204461727961";
    "20416c6578616e64726f766e61204f626c6f6e736b61796100446f6c6c790077696665004d697373";
    "204564776172647300456e676c69736820676f7665726e6f72004d61727961204566696d6f766e61";
    "006e757273650046796f646f72203100636f6163686d616e0046796f646f72205279657a756e6f76";
    "0063617270656e7465720046796f646f7220320070656173616e7400476167696e006f6666696365";
    "722066726f6d205065746572736275726700476f6c656e697368746368657600667269656e640047";
    "726973686100796f756e6720736f6e004772696e65766974636820284d696861696c205374616e69";
    "736c6176697463682900626f617264206d656d6265720048616e6e616800707570696c004d697373";
    "20486f6f6c6500456e676c69736820676f7665726e65737320746f206368696c6472656e0049676e";
    "617400636f6163686d616e004976616e203100636f7768657264004976616e203200636f6163686d";
    "656e004a756c6573204c616e6461752028436f756e742042657a7a75626f76290070737963686963";
    "004361707461696e204b616d65726f76736b7900636176616c7279206f666669636572005072696e";
    "6365204b6564726f76006d656d626572206f6620726567696d656e74005072696e6365737320456b";
    "61746572696e6120416c6578616e64726f766e612053687463686572626174736b617961004b6974";
    "7479007769666500536572676569204976616e6f7669746368204b6f7a6e69736865760068616c66";
    "2d62726f74686572004b617069746f6e697463680068616c6c20706f72746572004b726974736b79";
    "00667269656e640050726f666573736f72204b6174617661736f76006e61747572616c2073636965";
    "6e74697374005072696e6365204b757a6f766c6576006665617266756c20686f7273656d616e004b";
    "726976696e0062616c6420736f6369616c697465004b6f726e65790076616c6574004b6f757a6d61";
    "00656c6465726c792073657276616e74004b6f6e7374616e74696e20446d69747269657669746368";
    "204c6576696e0070726f70726965746f72206f6620506f6b726f76736b6f6500436f756e74657373";
    "204c69646961204976616e6f766e61005065746572736275726720646f676f6f646572004c696469";
    "204b6f7273756e736b6179610077696665004c696c7900796f756e67657374206368696c64004c69";
    "7a61204d65726b616c6f7661007468696e206272756e657474652061646d69726564004c697a6176";
    "65746120506574726f766e61006d69647769666500417273656e79204c766f760068757362616e64";
    "004d61747665790076616c6574005072696e63657373204d6172796120426f726973736f766e6100";
    "676f646d6f74686572004d696861696c00636f6163686d616e004d6172796120446d697472696576";
    "6e610061756e74004d6172696574746500676f7665726e657373004d61686f74696e00726976616c";
    "20686f7273656d616e004d696861696c6f76007061696e746572004d696861696c69746368006265";
    "656b6565706572004d6973686b610070656173616e74206c6164004d6164656d6f6973656c6c6520";
    "4c696e6f6e004672656e636820676f7665726e657373004d617368612033006c6974746c65206461";
    "756768746572004d61727961204e696b6f6c6165766e6100636f6d70616e696f6e004d6574726f76";
    "005065746572736275726720736f6369616c20736369656e74697374004d696861656c2050657472";
    "6f7669746368006c616e646f776e6572004d617368612032006d616964004d6164656d6f6973656c";
    "6c6520526f6c616e64004672656e636820676f7665726e657373004d6164616d6520537461686c00";
    "696e76616c6964207068696c616e7468726f70697374004d6173686120546368696269736f766100";
    "64616e636572004d6172796120566c61737965766e61006d696477696665004d6173686120310079";
    "6f756e672072656c6174697665005072696e63657373204d79616b61796100656e66616e74207465";
    "727269626c65004d6164616d6520537669617a68736b6179610077696665005072696e6365737320";
    "4e6174616c6961204c766f766100736973746572004e6164696e6b61006e69656365004e696b6f6c";
    "6179204c6576696e0062726f74686572004e696b6f6c696e6b6100736f6e004e696b6974696e2028";
    "5068696c6970204976616e6f76697463682900626f617264206d656d626572004e696b6f6c617920";
    "53687463686572626174736b7900636f7573696e004e617374696100736973746572004d6164616d";
    "65204e696b6f6c6165766e61006d616964206f6620686f6e6f72004e65767965646f76736b79006d";
    "616c69676e616e742067656e746c656d616e005061726d656e69746368006f6c64206265656b6565";
    "706572005072696e63652054636865746368656e736b79006d616e20776974682074776f2066616d";
    "696c6965730050796f747220446d6974726965766974636800646f63746f720050657374736f7600";
    "656363656e7472696320656e7468757369617374004d6174726f6e61204d61727961205068696c69";
    "6d6f6e6f766e61006e75727365005072696e6365204b616c757a68736b7900506574657273627572";
    "67207061727479206775657374005072696e63657373204f626c6f6e736b61796100756e6d617272";
    "6965642061756e74005072696e63652050796f7472204f626c6f6e736b79006d616e206f66207369";
    "787479005072696e636520416c6578616e6465722053687463686572626174736b79006661746865";
    "72005072696e636573732053687463686572626174736b617961006d6f74686572004c6965757465";
    "6e616e7420506574726974736b7900667269656e64004d696861696c20416c657865796576697463";
    "6820506574726f76007061696e7465720050796f74720073657276616e740050726f686f72205965";
    "726d696c696e006d6f776572004d617279612059657667656e7965766e6120527469736874636865";
    "7661006c616479206f66204d6f73636f77004d696861696c2049676e617469746368205279616269";
    "6e696e006d65726368616e7400536173686100776966650053657267657920416c65786579657669";
    "746368204b6172656e696e00536572796f7a686100736f6e004261726f6e657373205368696c746f";
    "6e00667269656e640056617373696c79204c756b69746368205369746e696b6f76007475746f7200";
    "4d696861696c2056617373696c6965766974636820536c7564696e00736563726574617279206f66";
    "206465706172746d656e7400537472656d6f76006f70706f6e656e740053746570616e2056617373";
    "696c69657669746368006c616e646f776e6572005072696e6365737320536f726f6b696e6100796f";
    "756e6720667269656e640047656e6572616c205365727075686f76736b6f7900726976616c00536e";
    "65746b6f77006d61727368616c206f66204b617368696e736b792070726f76696e63650053617070";
    "686f205368746f6c7a00626c6f6e646520626561757479005072696e63652053746570616e204172";
    "6b616479657669746368204f626c6f6e736b790053746976610062726f7468657200536875726165";
    "760070656173616e74004e696b6f6c6179204976616e6f766974636820537669617a68736b79006c";
    "616e646f776e65720053656d796f6e00636f6e74726163746f720054616e7961006f6c6465737420";
    "6461756768746572004d6164616d6520547275626574736b6179610077656464696e672067756573";
    "74005463686972696b6f760062657374206d616e00546974006d6f77657200547573686b65766974";
    "63680063726f7175657420706c61796572005475726f767473696e00706172747920677565737400";
    "566172796100776966650056656e64656e006d757374616368696f656420636c65726b0056617373";
    "696c79204665646f726f7669746368006261696c69666600566f6c676172696e6f6666004a657700";
    "50796f747220496c79697463682056696e6f76736b7900636c756220667269656e64005661727661";
    "726120416e64726565766e6100566172656e6b610061646f70746564206461756768746572004976";
    "616e20506574726f7669636820566f726b756576007075626c6973686572005072696e6365737320";
    "566172766172610061756e7400436f756e7420416c65786579204b6972696c6c6f76697463682056";
    "726f6e736b7900796f756e67206f666669636572005661736b610061646d69726572005661737365";
    "6e6b61205665736c6f76736b790064697374616e7420636f7573696e00566f79746f7600686f7273";
    "652070757263686173657200416c6578616e6465722056726f6e736b790062726f74686572005965";
    "676f720073657276616e7420696e20686f74656c005965676f727573686b61204b6f7273756e736b";
    "790068616e64736f6d652064616e63657200596f756e672053687463686572626174736b79006272";
    "6f74686572004361707461696e205961736876696e0067616d626c696e6720667269656e64000000";
    "000000000000"]);
  ("strings.schema", [
    "6e616d65737061636520636f617070656172616e636573207b0a617263686976652047726170680a";
    "7b0a20202020737472696e6773203a207261775f646174613b0a7d0a7d0a0a"]);
  ("vertices", [
    "280200000000000063000000710000008e000000be000000dc000000e8000000fb00000006010000";
    "18010000320100004d0100007001000083010000a3010000be010000dc010000f40100000d020000";
    "28020000420200007402000092020000a7020000b9020000d3020000e40200000203000017030000";
    "2803000057030000640300008d0300009c030000ab030000bb030000e10300000404000025040000";
    "6004000089040000a1040000b0040000d6040000f70400000d0500001a0500003105000068050000";
    "94050000aa050000be050000e3050000fd050000110600001e060000420600005206000068060000";
    "7b06000092060000a3060000b8060000cb060000ef06000007070000220700004507000061070000";
    "6e07000093070000b7070000cf070000e7070000fe0700001f080000370800005508000063080000";
    "7908000087080000b0080000cd080000db080000fb0800001b090000340900005e09000078090000";
    "95090000b6090000de090000010a0000240a00004a0a00006a0a0000860a0000a90a0000b70a0000";
    "cd0a0000fa0a00001d0b0000280b0000510b0000690b0000880b0000bc0b0000cd0b0000ec0b0000";
    "0b0c0000260c00004c0c0000680c00009a0c0000aa0c0000d10c0000e30c0000f90c00001a0d0000";
    "2d0d0000370d0000520d0000680d0000730d00008c0d0000a80d0000b80d0000db0d0000060e0000";
    "270e00003d0e00006d0e00007b0e00009d0e0000b40e0000ce0e0000e50e00000a0f0000260f0000";
    "0000000000000000"]);
  ("vertices.schema", [
    "6e616d65737061636520636f617070656172616e636573207b0a7374727563742043686172616374";
    "65720a7b0a202020206e616d655f726566203a20753332203a2033323b0a7d0a7d0a0a6e616d6573";
    "7061636520636f617070656172616e636573207b0a617263686976652047726170680a7b0a202020";
    "20406578706c696369745f7265666572656e636528202e636f617070656172616e6365732e436861";
    "7261637465722e6e616d655f7265662c202e636f617070656172616e6365732e47726170682e7374";
    "72696e677320290a202020207665727469636573203a20766563746f723c202e636f617070656172";
    "616e6365732e436861726163746572203e3b0a7d0a7d0a0a"]);
  ("vertices_data", [
    "8a03000000000000026c000000030002820000002e0001ac00000002d7000000020003e400000013";
    "006f0002f60000005f00030101000003008100000d01000003130100002e0025000126010000023c";
    "01000025000159010000027e0100000900029c010000810002b30100006f0002ce010000870002ea";
    "0100008100020602000025000112020000023b02000081000069020000026f0200006f0002810200";
    "00650002a1020000020002b0020000000001c902000001dc02000001ea0200000210030000810003";
    "1e0300006f001300014a030000025e0300000300026f030000130002930300002e0001a303000002";
    "b20300002e0001d903000001f4030000021204000081000055040000025b0400002e00027c040000";
    "2e000295040000020002a90400004d0001c404000001e604000001fe040000021405000002000221";
    "0500002e00014f050000018005000002a5050000870003af05000013006f0002cd050000690001f5";
    "05000002090600004b0002180600006f000238060000250001490600000263060000250002710600";
    "00650002830600008100019b06000001ae06000001bf06000002de060000250003f70600006f0013";
    "0002180700004d000129070000015707000002690700002500018207000001a007000001c8070000";
    "01df07000002ef0700000c00010f08000002320800007100034e08000013002500025d0800002f00";
    "02710800002e00038308000013006f0001a308000002c6080000250002d4080000470002ed080000";
    "25000107090000012609000001480900000171090000018009000001b009000001c709000002f209";
    "0000030001170a000003430a00001300250003630a000013002500027f0a0000810001a10a000002";
    "af0a0000030001c70a000001eb0a000001140b000002230b00003b0000440b0000034d0b00000200";
    "030002620b00005e0002820b0000650002a40b0000020002c40b0000020001e20b000002fe0b0000";
    "120002200c00008100012e0c0000015a0c0000008c0c000002920c0000030001a20c000001c70c00";
    "0002d80c00002e0003e90c00006f001300010c0d000002240d00002e0001310d000001430d000001";
    "5c0d0000026e0d00008500017a0d000002a00d00002e0001b40d000002cf0d00006f0000ed0d0000";
    "02f50d00004500011d0e000002380e00006f00015f0e000002730e00006e00028e0e0000250001a4";
    "0e000002c60e0000810001d40e000001fa0e0000021e0f0000250002360f00008100000000000000";
    "0000"]);
  ("vertices_data.schema", [
    "6e616d65737061636520636f617070656172616e636573207b0a737472756374204e69636b6e616d";
    "650a7b0a20202020726566203a20753332203a2033323b0a7d0a7d0a0a6e616d6573706163652063";
    "6f617070656172616e636573207b0a737472756374204465736372697074696f6e0a7b0a20202020";
    "726566203a20753332203a2033323b0a7d0a7d0a0a6e616d65737061636520636f61707065617261";
    "6e636573207b0a73747275637420556e61727952656c6174696f6e0a7b0a202020206b696e645f72";
    "6566203a20753332203a2033323b0a20202020746f5f726566203a20753332203a2031363b0a7d0a";
    "7d0a0a6e616d65737061636520636f617070656172616e636573207b0a7374727563742042696e61";
    "727952656c6174696f6e0a7b0a202020206b696e645f726566203a20753332203a2033323b0a2020";
    "2020746f5f615f726566203a20753332203a2031363b0a20202020746f5f625f726566203a207533";
    "32203a2031363b0a7d0a7d0a0a6e616d65737061636520636f617070656172616e636573207b0a61";
    "7263686976652047726170680a7b0a20202020406578706c696369745f7265666572656e63652820";
    "2e636f617070656172616e6365732e4e69636b6e616d652e7265662c202e636f617070656172616e";
    "6365732e47726170682e737472696e677320290a20202020406578706c696369745f726566657265";
    "6e636528202e636f617070656172616e6365732e4465736372697074696f6e2e7265662c202e636f";
    "617070656172616e6365732e47726170682e737472696e677320290a20202020406578706c696369";
    "745f7265666572656e636528202e636f617070656172616e6365732e556e61727952656c6174696f";
    "6e2e6b696e645f7265662c202e636f617070656172616e6365732e47726170682e737472696e6773";
    "20290a20202020406578706c696369745f7265666572656e636528202e636f617070656172616e63";
    "65732e556e61727952656c6174696f6e2e746f5f7265662c202e636f617070656172616e6365732e";
    "47726170682e766572746963657320290a20202020406578706c696369745f7265666572656e6365";
    "28202e636f617070656172616e6365732e42696e61727952656c6174696f6e2e6b696e645f726566";
    "2c202e636f617070656172616e6365732e47726170682e737472696e677320290a20202020406578";
    "706c696369745f7265666572656e636528202e636f617070656172616e6365732e42696e61727952";
    "656c6174696f6e2e746f5f615f7265662c202e636f617070656172616e6365732e47726170682e76";
    "6572746963657320290a20202020406578706c696369745f7265666572656e636528202e636f6170";
    "70656172616e6365732e42696e61727952656c6174696f6e2e746f5f625f7265662c202e636f6170";
    "70656172616e6365732e47726170682e766572746963657320290a2020202076657274696365735f";
    "64617461203a206d756c7469766563746f723c2033322c202e636f617070656172616e6365732e4e";
    "69636b6e616d652c202e636f617070656172616e6365732e4465736372697074696f6e2c202e636f";
    "617070656172616e6365732e556e61727952656c6174696f6e2c202e636f617070656172616e6365";
    "732e42696e61727952656c6174696f6e203e3b0a7d0a7d0a0a"]);
  ("vertices_data_index", [
    "2c0200000000000000000000070000000e000000130000001a000000230000002a00000033000000";
    "41000000460000004d000000520000005900000060000000670000006e000000750000007c000000";
    "8100000088000000940000009b000000a2000000a9000000ae000000b3000000b8000000bf000000";
    "c8000000cd000000d4000000db000000e2000000e7000000ee000000f3000000f8000000ff000000";
    "0b010000120100001901000020010000250100002a0100002f010000360100003d01000042010000";
    "470100004e010000570100005e010000630100006a01000071010000780100007d01000084010000";
    "8b01000092010000970100009c010000a1010000a8010000b1010000b8010000bd010000c2010000";
    "c9010000ce010000d3010000d8010000dd010000e4010000e9010000f0010000f901000000020000";
    "0702000010020000150200001c020000230200002a0200002f02000034020000390200003e020000";
    "43020000480200004d0200005402000059020000620200006b02000072020000770200007e020000";
    "83020000880200008d02000094020000a2020000a9020000b0020000b7020000be020000c3020000";
    "ca020000d1020000d6020000db020000e7020000ec020000f1020000f80200000103000006030000";
    "0d03000012030000170300001c03000023030000280300002f030000340300003b03000047030000";
    "4c03000053030000580300005f030000660300006b03000072030000770300007c03000083030000";
    "8a0300000000000000000000"]);
  ("vertices_data_index.schema", [
    "696e646578286e616d65737061636520636f617070656172616e636573207b0a737472756374204e";
    "69636b6e616d650a7b0a20202020726566203a20753332203a2033323b0a7d0a7d0a0a6e616d6573";
    "7061636520636f617070656172616e636573207b0a737472756374204465736372697074696f6e0a";
    "7b0a20202020726566203a20753332203a2033323b0a7d0a7d0a0a6e616d65737061636520636f61";
    "7070656172616e636573207b0a73747275637420556e61727952656c6174696f6e0a7b0a20202020";
    "6b696e645f726566203a20753332203a2033323b0a20202020746f5f726566203a20753332203a20";
    "31363b0a7d0a7d0a0a6e616d65737061636520636f617070656172616e636573207b0a7374727563";
    "742042696e61727952656c6174696f6e0a7b0a202020206b696e645f726566203a20753332203a20";
    "33323b0a20202020746f5f615f726566203a20753332203a2031363b0a20202020746f5f625f7265";
    "66203a20753332203a2031363b0a7d0a7d0a0a6e616d65737061636520636f617070656172616e63";
    "6573207b0a617263686976652047726170680a7b0a20202020406578706c696369745f7265666572";
    "656e636528202e636f617070656172616e6365732e4e69636b6e616d652e7265662c202e636f6170";
    "70656172616e6365732e47726170682e737472696e677320290a20202020406578706c696369745f";
    "7265666572656e636528202e636f617070656172616e6365732e4465736372697074696f6e2e7265";
    "662c202e636f617070656172616e6365732e47726170682e737472696e677320290a202020204065";
    "78706c696369745f7265666572656e636528202e636f617070656172616e6365732e556e61727952";
    "656c6174696f6e2e6b696e645f7265662c202e636f617070656172616e6365732e47726170682e73";
    "7472696e677320290a20202020406578706c696369745f7265666572656e636528202e636f617070";
    "656172616e6365732e556e61727952656c6174696f6e2e746f5f7265662c202e636f617070656172";
    "616e6365732e47726170682e766572746963657320290a20202020406578706c696369745f726566";
    "6572656e636528202e636f617070656172616e6365732e42696e61727952656c6174696f6e2e6b69";
    "6e645f7265662c202e636f617070656172616e6365732e47726170682e737472696e677320290a20";
    "202020406578706c696369745f7265666572656e636528202e636f617070656172616e6365732e42";
    "696e61727952656c6174696f6e2e746f5f615f7265662c202e636f617070656172616e6365732e47";
    "726170682e766572746963657320290a20202020406578706c696369745f7265666572656e636528";
    "202e636f617070656172616e6365732e42696e61727952656c6174696f6e2e746f5f625f7265662c";
    "202e636f617070656172616e6365732e47726170682e766572746963657320290a20202020766572";
    "74696365735f64617461203a206d756c7469766563746f723c2033322c202e636f61707065617261";
    "6e6365732e4e69636b6e616d652c202e636f617070656172616e6365732e4465736372697074696f";
    "6e2c202e636f617070656172616e6365732e556e61727952656c6174696f6e2c202e636f61707065";
    "6172616e6365732e42696e61727952656c6174696f6e203e3b0a7d0a7d0a0a29"])].
