(** * ModelKats: the known-answer tests of the repository (generated by tools/gen_kats.py)

    The input of each test is 0, 1, ..., t-1; the list is the expected output, position by position. *)
From Verif Require Import Base Field ModelInstances.
Local Open Scope Z_scope.

Definition p2_kats : list (p2_instance * list Z) := [
  (* src/poseidon2/poseidon2.rs:281-298 *)
  (POSEIDON2_GOLDILOCKS_12_PARAMS, [
    138186169299091649;
    2237493815125627916;
    7098449130000758157;
    16681569560651424230;
    2885694034573886267;
    1987263728465303211;
    4895658260063552408;
    16782691522897809445;
    6250362358359317026;
    8723968546836371205;
    17025428646788054631;
    7660698892044183277]);
  (* src/poseidon2/poseidon2.rs:347-376 *)
  (POSEIDON2_BABYBEAR_24_PARAMS, [
    785637949;
    311566256;
    241540729;
    1641553353;
    851108667;
    1648913123;
    510139232;
    616108837;
    707720633;
    1357404478;
    1539840236;
    275323287;
    899761440;
    732341189;
    664618988;
    1426148993;
    1498654335;
    792736017;
    1804085503;
    402731039;
    659103866;
    1036635937;
    1016617890;
    1470732388]);
  (* src/poseidon2/poseidon2.rs:429-436 *)
  (POSEIDON2_BLS_2_PARAMS, [
    52363037649740716030766703085959398089247109082552119369664912680823987490382;
    14046768006860121393795564977526877746513733133602551947789337117320794882996]);
  (* src/poseidon2/poseidon2.rs:438-446 *)
  (POSEIDON2_BLS_3_PARAMS, [
    12249794248008371943965195507194171345311258135909954438653399945366036280816;
    34530512148863939455675662080244961267438888698342943852832905748800656324753;
    14376704056201869785286496167433956486206399269351247466538836868879344524395]);
  (* src/poseidon2/poseidon2.rs:448-457 *)
  (POSEIDON2_BLS_4_PARAMS, [
    18543807459877364126908352029685462281488659954858558933392966590401135434349;
    6486003883477478427469307271780113565813206904808083202373087381132280912685;
    49531065568108882186803339532638377985898634706171140442815716917306497904848;
    3533173620704471731420930490618911963424635467018145440601039502713526898230]);
  (* src/poseidon2/poseidon2.rs:499-507 *)
  (POSEIDON2_BN256_PARAMS, [
    5297208644449048816064511434384511824916970985131888684874823260532015509555;
    21816030159894113985964609355246484851575571273661473159848781012394295965040;
    13940986381491601233448981668101586453321811870310341844570924906201623195336]);
  (* src/poseidon2/poseidon2.rs:568-576 *)
  (POSEIDON2_PALLAS_3_PARAMS, [
    12034580478475899756768852307737011850845987783813919900518943507286591966586;
    12793588015935436972406883162492490643371701127091833715009315828048670032380;
    3445110498342580915003896963218627245598739827334005084754590007820223034369]);
  (* src/poseidon2/poseidon2.rs:616-624 *)
  (POSEIDON2_VESTA_PARAMS, [
    17242300747239067162598679661883726010595470725927247522813204773213848872850;
    20110601776785301845784077236520917651993463881458952614501114449858670413423;
    17249884929888930719727146739709554376568891774225041385253561222176908575167])].

Definition ps_kats : list (ps_instance * list Z) := [
  (* src/poseidon/poseidon.rs:213-222 *)
  (POSEIDON_BLS_2_PARAMS, [
    13462469730892783292350233472994074136389245324422719833314044741566609082423;
    37677627161511286507869681982137181456502358865834245927300079155189230645314]);
  (* src/poseidon/poseidon.rs:225-238 *)
  (POSEIDON_BLS_3_PARAMS, [
    14499475219844974963221856747336039131833396832045711790727054294290942067607;
    15470137726010734138292039866991926489352040073488165745803957705676080957413;
    21114534782900620162539900480886465721360198738143813308154512518639378089829]);
  (* src/poseidon/poseidon.rs:297-310 *)
  (POSEIDON_BN_PARAMS, [
    17399623838475239799943718664119804533395197896522179101860655769373190577759;
    15234842023432367724626316877693420881333401485954008517980088176361917850527;
    253642533493806971684805114849917904755473311217144888572234801811563833798]);
  (* src/poseidon/poseidon.rs:377-430 *)
  (POSEIDON_GOLDILOCKS_12_PARAMS, [
    16838245455416823541;
    13918258744902056025;
    11969285635473530902;
    16922810694120419235;
    10656246514897578331;
    6029145372492884260;
    17563001597049917265;
    2624662081137565060;
    14735658222877941583;
    17721789158562939228;
    668904336957832099;
    11349821963908793226]);
  (* src/poseidon/poseidon.rs:565-578 *)
  (POSEIDON_PALLAS_3_PARAMS, [
    4066245739887409489587334267971338316516858825362122641362791603520771396124;
    19037792564536884761970582534298653066332859419683749848333063351204417013137;
    9310211575466444470129813796088751038529565528683515595611661335024432485909]);
  (* src/poseidon/poseidon.rs:639-652 *)
  (POSEIDON_VESTA_PARAMS, [
    23026814824024099928544649276665171746339214567495047480193418812936969691443;
    166834654706449650415944750528803964834687295419400228721666085063706714582;
    10034393987000332505171363795315663987761964215347954557422966224041676547539])].
