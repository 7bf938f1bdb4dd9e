(** The round constants of [Mimc::default] (nova/src/hash.rs:19-31) with [ROUND] = 46 over Fr, as integers, and an input
    for ClaimsHash.v.  They are digests of BLAKE2b, which is not modelled: computed outside, and used only in
    C70_library_constants_refuted. *)
From Coq Require Import ZArith List.
Import ListNotations.
Local Open Scope Z_scope.
Definition fr_mimc : list Z := [
  1720695226910748643365379880205188235903500136654766565155825520153510699747;
  2035761685729154576007912918672802560711149892610437039634686047698909897499;
  2389415420130679436936164080168098518146356291625888540527802721151014545111;
  20179358001253785842095775375113714462028622439560871973596523414005623482614;
  5823789301183391495657471717163878825064316670478929294443916793433984738497;
  4097638260783070201725952746434905279614532835091047291851520846150028786809;
  11425020894725386797697218428344793577667938042376042930761545667821552085555;
  11440264956588445345863587663807035799920412924376075702975242149503655558990;
  15182110012596917519902563876558411964609297780583085035414439355613718852371;
  20873648251715540323465826950531146600781146763049847816031040950408030093831;
  16026980768177518501091880629134154069615594639387501191569174173923583957476;
  1228899075837375773549737622347426459229062586090347338957458654451127386062;
  19871057683938295244934964263952873581888971867116597431459264169292975737081;
  15383888856411945328710499654731107907329635451735202672333412707407088837464;
  5964356042621763563937086365344087120284616992582510974803409825135736324981;
  16508619963135369226130586611029072827972104233462945686731970961787490256776;
  16010203731730820851559894540446583991750241565655503691688576862656547043126;
  12938992423968894595101470495821258299660038216035495512934274641517088062670;
  8860121609025421083303572052028284278748140878469865454979431020173680178637;
  6617991908727647616776350949665896565336331668669401991086078672075513594389;
  19013328044318225249317875054492364347719462637124600240550777316822788427101;
  4350616165110150813677897621148600503546917677303121759852922817204833151009;
  7817834729909925801425177377477311999774685297875876919776272012100162820874;
  4573255863813361586213607791154133647519800336988127208019320933457319410709;
  8685707944946452802287242232331967487090553049478332207355960652562340928991;
  21654100057360905880357639357778119475922385760197515599655949912548800354481;
  10567058932648764800807655049699161830759425128054595626790521656988204469900;
  12377528435752019968839108372942416641604923295272645984367789091206713518571;
  17184715246413534735637392127072391291509279796979132348198752364192334369401;
  7485923117788382244191791689274968908571976246398253333399597079026358574652;
  9946403653086476590599245924887545291253746421478610295661463995774350963057;
  21040993033909494086408350317441532008764572780210036450599639425190130427456;
  18636614688862097589472937241427713245728107449318304737984790925774816606070;
  16067890133915506881226961507308243588074151903787505824574787511558384148761;
  7796109227545544893855031379969254521132822559611536260783673673474743181885;
  4292115926218245452241957072303327727293161561830067464356581276469424168431;
  19720428590871561872909605469841179513935489754642643434286043888711413283851;
  5653728171036014372714478450337779675511570037223155203486820381870095824772;
  17834083453995449171030768579060691843288672510671574254888419108088935001484;
  49801799615466320095710284421832472346888430893144713411480685455340786760;
  2064530438449775468593219725828850424241274918482277666901143361254781793773;
  12411200397205151644909270856270122947225082250744578115348672535960716416390;
  5065760685166297273360345790709831235273242496822583763702570993150164259139;
  21636397184860296084208620330154120768192302425580314335419909820386730433769;
  6267358861066770632863100179091420286630482487390618342625561553956560196507;
  991450407067754246258355373978234188383836788747015822623627559207687603081].
Definition fr_mimc_xl : Z := 18102031475098519346534311874983130800043569127996903122564719882498396548430.
Definition fr_mimc_xr : Z := 1360918563194602040319003819686751107349689527744354755309543429051732213938.
