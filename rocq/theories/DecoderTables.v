(** * DecoderTables: the character tables of thermal_parser/src/decoder, transcribed by a script.
    A Rust string is the list of its Unicode scalar values. *)
From Verif Require Import Base GTypes.
Local Open Scope Z_scope.
Local Open Scope string_scope.

(** decoder/codepage_base.rs:1-15 *)
Definition base_table : string * list ustring := ("Default",
  [[0]; [1]; [2]; [3]; [4]; [5]; [6]; [7];
   [8]; [9]; [10]; [11]; [12]; [13]; [14]; [15];
   [16]; [17]; [18]; [19]; [20]; [21]; [22]; [23];
   [24]; [25]; [26]; [27]; [28]; [29]; [30]; [31];
   [32]; [33]; [34]; [35]; [36]; [37]; [38]; [39];
   [40]; [41]; [42]; [43]; [44]; [45]; [46]; [47];
   [48]; [49]; [50]; [51]; [52]; [53]; [54]; [55];
   [56]; [57]; [58]; [59]; [60]; [61]; [62]; [63];
   [64]; [65]; [66]; [67]; [68]; [69]; [70]; [71];
   [72]; [73]; [74]; [75]; [76]; [77]; [78]; [79];
   [80]; [81]; [82]; [83]; [84]; [85]; [86]; [87];
   [88]; [89]; [90]; [91]; [92]; [93]; [94]; [95];
   [96]; [97]; [98]; [99]; [100]; [101]; [102]; [103];
   [104]; [105]; [106]; [107]; [108]; [109]; [110]; [111];
   [112]; [113]; [114]; [115]; [116]; [117]; [118]; [119];
   [120]; [121]; [122]; [123]; [124]; [125]; [126]; [127]]).

(** decoder/codepage_0_437.rs:1-16 *)
Definition cp437_table : string * list ustring := ("Default (Codepage 437)",
  [[199]; [252]; [233]; [226]; [228]; [224]; [229]; [231];
   [234]; [235]; [232]; [239]; [238]; [236]; [196]; [197];
   [201]; [230]; [198]; [244]; [246]; [242]; [251]; [249];
   [255]; [214]; [220]; [162]; [163]; [165]; [8359]; [402];
   [225]; [237]; [243]; [250]; [241]; [209]; [170]; [186];
   [191]; [8976]; [172]; [189]; [188]; [161]; [171]; [187];
   [9617]; [9618]; [9619]; [9474]; [9508]; [9569]; [9570]; [9558];
   [9557]; [9571]; [9553]; [9559]; [9565]; [9564]; [9563]; [9488];
   [9492]; [9524]; [9516]; [9500]; [9472]; [9532]; [9566]; [9567];
   [9562]; [9556]; [9577]; [9574]; [9568]; [9552]; [9580]; [9575];
   [9576]; [9572]; [9573]; [9561]; [9560]; [9554]; [9555]; [9579];
   [9578]; [9496]; [9484]; [9608]; [9604]; [9612]; [9616]; [9600];
   [945]; [223]; [915]; [960]; [931]; [963]; [181]; [964];
   [934]; [920]; [937]; [948]; [8734]; [966]; [949]; [8745];
   [8801]; [177]; [8805]; [8804]; [8992]; [8993]; [247]; [8776];
   [176]; [8729]; [183]; [8730]; [8319]; [178]; [9632]; [160]]).

(** decoder/codepage_1_katakana.rs:1-16 *)
Definition katakana_table : string * list ustring := ("Katakana",
  [[9601]; [9602]; [9603]; [9604]; [9605]; [9606]; [9607]; [9608];
   [9615]; [9614]; [9613]; [9612]; [9611]; [9610]; [9609]; [9532];
   [9524]; [9516]; [9508]; [9500]; [175]; [9472]; [9474]; [9621];
   [9484]; [9488]; [9492]; [9496]; [9581]; [9582]; [9584]; [9583];
   [32]; [65377]; [65378]; [65379]; [65380]; [65381]; [65382]; [65383];
   [65384]; [65385]; [65386]; [65387]; [65388]; [65389]; [65390]; [65391];
   [65392]; [65393]; [65394]; [65395]; [65396]; [65397]; [65398]; [65399];
   [65400]; [65401]; [65402]; [65403]; [65404]; [65405]; [65406]; [65407];
   [65408]; [65409]; [65410]; [65411]; [65412]; [65413]; [65414]; [65415];
   [65416]; [65417]; [65418]; [65419]; [65420]; [65421]; [65422]; [65423];
   [65424]; [65425]; [65426]; [65427]; [65428]; [65429]; [65430]; [65431];
   [65432]; [65433]; [65434]; [65435]; [65436]; [65437]; [65438]; [65439];
   [9552]; [9566]; [9578]; [9569]; [9698]; [9699]; [9701]; [9700];
   [9824]; [9829]; [9830]; [9827]; [9679]; [9675]; [9585]; [9586];
   [9587]; [20870]; [24180]; [26376]; [26085]; [26178]; [20998]; [31186];
   [12306]; [24066]; [21306]; [30010]; [26449]; [20154]; [9619]; [160]]).

(** decoder/codepage_2_pc850.rs:1-16 *)
Definition cp850_table : string * list ustring := ("PC850: Multilingual",
  [[199]; [252]; [233]; [226]; [228]; [224]; [229]; [231];
   [234]; [235]; [232]; [239]; [238]; [236]; [196]; [197];
   [201]; [230]; [198]; [244]; [246]; [242]; [251]; [249];
   [255]; [214]; [220]; [248]; [163]; [216]; [215]; [402];
   [225]; [237]; [243]; [250]; [241]; [209]; [170]; [186];
   [191]; [174]; [172]; [189]; [188]; [161]; [171]; [187];
   [9617]; [9618]; [9619]; [9474]; [9508]; [193]; [194]; [192];
   [169]; [9571]; [9553]; [9559]; [9565]; [9564]; [9563]; [9488];
   [9492]; [9524]; [9516]; [9500]; [9472]; [9532]; [227]; [195];
   [9562]; [9556]; [9577]; [9574]; [9568]; [9552]; [9580]; [164];
   [240]; [208]; [202]; [203]; [200]; [305]; [205]; [206];
   [207]; [9496]; [9484]; [9608]; [9604]; [166]; [204]; [9600];
   [211]; [223]; [212]; [210]; [245]; [213]; [181]; [254];
   [222]; [218]; [219]; [217]; [253]; [221]; [175]; [180];
   [45]; [177]; [8215]; [190]; [182]; [167]; [247]; [184];
   [176]; [168]; [183]; [185]; [179]; [178]; [9632]; [160]]).

(** decoder/codepage_3_pc860.rs:1-16 *)
Definition cp860_table : string * list ustring := ("PC860: Portuguese",
  [[199]; [252]; [233]; [226]; [227]; [224]; [193]; [231];
   [234]; [202]; [232]; [205]; [212]; [236]; [195]; [194];
   [201]; [192]; [200]; [244]; [245]; [242]; [218]; [249];
   [204]; [213]; [220]; [162]; [163]; [217]; [8359]; [211];
   [225]; [237]; [243]; [250]; [241]; [209]; [170]; [186];
   [191]; [210]; [172]; [189]; [188]; [161]; [171]; [187];
   [9617]; [9618]; [9619]; [9474]; [9508]; [9569]; [9570]; [9558];
   [9557]; [9571]; [9553]; [9559]; [9565]; [9564]; [9563]; [9488];
   [9492]; [9524]; [9516]; [9500]; [9472]; [9532]; [9566]; [9567];
   [9562]; [9556]; [9577]; [9574]; [9568]; [9552]; [9580]; [9575];
   [9576]; [9572]; [9573]; [9561]; [9560]; [9554]; [9555]; [9579];
   [9578]; [9496]; [9484]; [9608]; [9604]; [9612]; [9616]; [9600];
   [945]; [223]; [915]; [960]; [931]; [963]; [181]; [964];
   [934]; [920]; [937]; [948]; [8734]; [966]; [949]; [8745];
   [8801]; [177]; [8805]; [8804]; [8992]; [8993]; [247]; [8776];
   [176]; [8729]; [183]; [8730]; [8319]; [178]; [9632]; [160]]).

(** decoder/codepage_4_pc863.rs:1-16 *)
Definition cp863_table : string * list ustring := ("PC863: Canadian-French",
  [[199]; [252]; [233]; [226]; [194]; [224]; [182]; [231];
   [234]; [235]; [232]; [239]; [238]; [8215]; [192]; [167];
   [201]; [200]; [202]; [244]; [203]; [207]; [251]; [249];
   [164]; [212]; [220]; [162]; [163]; [217]; [219]; [402];
   [166]; [180]; [243]; [250]; [168]; [184]; [179]; [175];
   [206]; [8976]; [172]; [189]; [188]; [190]; [171]; [187];
   [9617]; [9618]; [9619]; [9474]; [9508]; [9569]; [9570]; [9558];
   [9557]; [9571]; [9553]; [9559]; [9565]; [9564]; [9563]; [9488];
   [9492]; [9524]; [9516]; [9500]; [9472]; [9532]; [9566]; [9567];
   [9562]; [9556]; [9577]; [9574]; [9568]; [9552]; [9580]; [9575];
   [9576]; [9572]; [9573]; [9561]; [9560]; [9554]; [9555]; [9579];
   [9578]; [9496]; [9484]; [9608]; [9604]; [9612]; [9616]; [9600];
   [945]; [223]; [915]; [960]; [931]; [963]; [181]; [964];
   [934]; [920]; [937]; [948]; [8734]; [966]; [949]; [8745];
   [8801]; [177]; [8805]; [8804]; [8992]; [8993]; [247]; [8776];
   [176]; [8729]; [183]; [8730]; [8319]; [178]; [9632]; [160]]).

(** decoder/codepage_5_pc865.rs:1-16 *)
Definition cp865_table : string * list ustring := ("PC865: Nordic",
  [[199]; [252]; [233]; [226]; [228]; [224]; [229]; [231];
   [234]; [235]; [232]; [239]; [238]; [236]; [196]; [197];
   [201]; [230]; [198]; [244]; [246]; [242]; [251]; [249];
   [255]; [214]; [220]; [248]; [163]; [216]; [215]; [402];
   [225]; [237]; [243]; [250]; [241]; [209]; [170]; [186];
   [191]; [174]; [172]; [189]; [188]; [161]; [171]; [164];
   [9617]; [9618]; [9619]; [9474]; [9508]; [193]; [194]; [192];
   [169]; [9571]; [9553]; [9559]; [9565]; [162]; [165]; [9488];
   [9492]; [9524]; [9516]; [9500]; [9472]; [9532]; [9566]; [9567];
   [9562]; [9556]; [9577]; [9574]; [9568]; [9552]; [9580]; [9575];
   [9576]; [9572]; [9573]; [9561]; [9560]; [9554]; [9555]; [9579];
   [9578]; [9496]; [9484]; [9608]; [9604]; [9612]; [9616]; [9600];
   [945]; [223]; [915]; [960]; [931]; [963]; [181]; [964];
   [934]; [920]; [937]; [948]; [8734]; [966]; [949]; [8745];
   [8801]; [177]; [8805]; [8804]; [8992]; [8993]; [247]; [8776];
   [176]; [8729]; [183]; [8730]; [8319]; [178]; [9632]; [160]]).

(** decoder/codepage_11_pc851.rs:1-16 *)
Definition cp851_table : string * list ustring := ("PC851: Greek",
  [[199]; [252]; [233]; [226]; [228]; [224]; [902]; [231];
   [234]; [235]; [232]; [239]; [238]; [904]; [196]; [905];
   [906]; []; [908]; [244]; [246]; [910]; [251]; [249];
   [911]; [214]; [220]; [940]; [163]; [941]; [942]; [943];
   [970]; [912]; [972]; [973]; [913]; [914]; [915]; [916];
   [917]; [918]; [919]; [189]; [920]; [921]; [171]; [187];
   [9617]; [9618]; [9619]; [9474]; [9508]; [922]; [923]; [924];
   [925]; [9571]; [9553]; [9559]; [9565]; [926]; [927]; [9488];
   [9492]; [9524]; [9516]; [9500]; [9472]; [9532]; [928]; [929];
   [9562]; [9556]; [9577]; [9574]; [9568]; [9552]; [9580]; [931];
   [932]; [933]; [934]; [935]; [936]; [937]; [945]; [946];
   [947]; [9496]; [9484]; [9608]; [9604]; [948]; [949]; [9600];
   [950]; [951]; [952]; [953]; [954]; [955]; [956]; [957];
   [958]; [959]; [960]; [961]; [963]; [962]; [964]; [180];
   [173]; [177]; [965]; [966]; [967]; [167]; [968]; [184];
   [176]; [168]; [969]; [971]; [944]; [974]; [9632]; [160]]).

(** decoder/codepage_12_pc853.rs:1-16 *)
Definition cp853_table : string * list ustring := ("PC853: Turkish",
  [[199]; [252]; [233]; [226]; [228]; [224]; [265]; [231];
   [234]; [235]; [232]; [239]; [238]; [236]; [196]; [264];
   [201]; [267]; [266]; [244]; [246]; [242]; [251]; [249];
   [304]; [214]; [220]; [285]; [163]; [284]; [215]; [309];
   [225]; [237]; [243]; [250]; [241]; [209]; [286]; [287];
   [292]; [293]; []; [189]; [308]; [351]; [171]; [187];
   [9617]; [9618]; [9619]; [9474]; [9508]; [193]; [194]; [192];
   [350]; [9571]; [9553]; [9559]; [9565]; [379]; [380]; [9488];
   [9492]; [9524]; [9516]; [9500]; [9472]; [9532]; [348]; [349];
   [9562]; [9556]; [9577]; [9574]; [9568]; [9552]; [9580]; [164];
   []; []; [202]; [203]; [200]; [305]; [205]; [206];
   [207]; [9496]; [9484]; [9608]; [9604]; []; [204]; [9600];
   [211]; [223]; [212]; [210]; [288]; [289]; [181]; [294];
   [295]; [218]; [219]; [217]; [364]; [365]; [183]; [180];
   [173]; []; [8467]; [329]; [728]; [167]; [247]; [184];
   [176]; [168]; [729]; []; [179]; [178]; [9632]; [160]]).

(** decoder/codepage_13_pc857.rs:1-16 *)
Definition cp857_table : string * list ustring := ("PC857: Turkish",
  [[199]; [252]; [233]; [226]; [228]; [224]; [229]; [231];
   [234]; [235]; [232]; [239]; [238]; [305]; [196]; [197];
   [201]; [230]; [198]; [244]; [246]; [242]; [251]; [249];
   [304]; [214]; [220]; [248]; [163]; [216]; [350]; [351];
   [225]; [237]; [243]; [250]; [241]; [209]; [286]; [287];
   [191]; [174]; [172]; [189]; [188]; [161]; [171]; [187];
   [9617]; [9618]; [9619]; [9474]; [9508]; [193]; [194]; [192];
   [169]; [9571]; [9553]; [9559]; [9565]; [162]; [165]; [9488];
   [9492]; [9524]; [9516]; [9500]; [9472]; [9532]; [227]; [195];
   [9562]; [9556]; [9577]; [9574]; [9568]; [9552]; [9580]; [164];
   [186]; [170]; [202]; [203]; [200]; [8364]; [205]; [206];
   [207]; [9496]; [9484]; [9608]; [9604]; [166]; [204]; [9600];
   [211]; [223]; [212]; [210]; [245]; [213]; [181]; [];
   [215]; [218]; [219]; [217]; [236]; [255]; [175]; [180];
   [173]; [177]; []; [190]; [182]; [167]; [247]; [184];
   [176]; [168]; [183]; [185]; [179]; [178]; [9632]; [160]]).

(** decoder/international.rs:3-3 *)
Definition intl_usa : string * list (Z * ustring) := ("Us English",
  []).

(** decoder/international.rs:5-19 *)
Definition intl_france : string * list (Z * ustring) := ("French",
  [(64, [224]); (91, [231]); (92, [167]); (93, [94]); (94, [233]); (96, [249]); (123, [232]); (124, [168]); (125, [251]); (126, [252])]).

(** decoder/international.rs:21-33 *)
Definition intl_germany : string * list (Z * ustring) := ("German",
  [(64, [167]); (91, [196]); (92, [214]); (93, [220]); (96, [228]); (123, [246]); (124, [252]); (125, [223])]).

(** decoder/international.rs:35-35 *)
Definition intl_uk : string * list (Z * ustring) := ("British English",
  [(35, [163])]).

(** decoder/international.rs:37-51 *)
Definition intl_denmark_i : string * list (Z * ustring) := ("Danish Variant I",
  [(64, [196]); (91, [198]); (92, [216]); (93, [197]); (94, [94]); (96, [228]); (123, [230]); (124, [248]); (125, [229]); (126, [126])]).

(** decoder/international.rs:53-67 *)
Definition intl_sweden : string * list (Z * ustring) := ("Swedish",
  [(64, [201]); (91, [196]); (92, [214]); (93, [197]); (94, [220]); (96, [233]); (123, [228]); (124, [246]); (125, [229]); (126, [252])]).

(** decoder/international.rs:69-81 *)
Definition intl_italy : string * list (Z * ustring) := ("Italian",
  [(64, [167]); (92, [249]); (94, [233]); (96, [224]); (123, [242]); (124, [231]); (125, [232]); (126, [236])]).

(** decoder/international.rs:83-95 *)
Definition intl_spain_i : string * list (Z * ustring) := ("Spanish Variant I",
  [(64, [209]); (91, [161]); (92, [191]); (93, [231]); (123, [241]); (124, [172]); (125, [189]); (126, [188])]).

(** decoder/international.rs:97-97 *)
Definition intl_japan : string * list (Z * ustring) := ("Japanese",
  [(92, [165]); (124, [166])]).

(** decoder/international.rs:99-113 *)
Definition intl_norway : string * list (Z * ustring) := ("Norwegian",
  [(64, [196]); (91, [198]); (92, [216]); (93, [197]); (94, [220]); (96, [228]); (123, [230]); (124, [248]); (125, [229]); (126, [252])]).

(** decoder/international.rs:115-129 *)
Definition intl_denmark_ii : string * list (Z * ustring) := ("Danish Variant II",
  [(64, [201]); (91, [198]); (92, [216]); (93, [197]); (94, [220]); (96, [233]); (123, [230]); (124, [248]); (125, [229]); (126, [252])]).

(** decoder/international.rs:131-145 *)
Definition intl_spain_ii : string * list (Z * ustring) := ("Spanish Variant II",
  [(64, [225]); (91, [237]); (92, [209]); (93, [211]); (94, [218]); (96, [241]); (123, [225]); (124, [237]); (125, [243]); (126, [250])]).

(** decoder/international.rs:147-161 *)
Definition intl_latin_america : string * list (Z * ustring) := ("Latin",
  [(64, [225]); (91, [237]); (92, [209]); (93, [211]); (94, [218]); (96, [241]); (123, [233]); (124, [237]); (125, [243]); (126, [250])]).

(** decoder/international.rs:163-163 *)
Definition intl_korea : string * list (Z * ustring) := ("Korean",
  [(92, [8361]); (124, [8361])]).

(** decoder/international.rs:165-175 *)
Definition intl_slovenia : string * list (Z * ustring) := ("Slovenian",
  [(91, [352]); (92, [272]); (93, [268]); (123, [382]); (124, [273]); (125, [269])]).

(** decoder/international.rs:177-177 *)
Definition intl_china : string * list (Z * ustring) := ("Chinese",
  [(92, [165])]).

(** decoder/international.rs:179-179 *)
Definition intl_vietnam : string * list (Z * ustring) := ("Vietnamese",
  [(35, [273])]).

(** decoder/international.rs:181-181 *)
Definition intl_arabia : string * list (Z * ustring) := ("Arabic",
  [(42, [1645])]).

(** decoder/international.rs:183-197 *)
Definition intl_devanagari : string * list (Z * ustring) := ("Devengari",
  [(48, [2406]); (49, [2407]); (50, [2408]); (51, [2409]); (52, [2410]); (53, [2411]); (54, [2412]); (55, [2413]); (56, [2414]); (57, [2415])]).

(** decoder/international.rs:199-213 *)
Definition intl_bengali : string * list (Z * ustring) := ("Bengali",
  [(48, [2534]); (49, [2535]); (50, [2536]); (51, [2537]); (52, [2538]); (53, [2539]); (54, [2540]); (55, [2541]); (56, [2542]); (57, [2543])]).

(** decoder/international.rs:215-229 *)
Definition intl_tamil : string * list (Z * ustring) := ("Tamil",
  [(48, [3046]); (49, [3047]); (50, [3048]); (51, [3049]); (52, [3050]); (53, [3051]); (54, [3052]); (55, [3053]); (56, [3054]); (57, [3055])]).

(** decoder/international.rs:231-245 *)
Definition intl_telugu : string * list (Z * ustring) := ("Telugu",
  [(48, [3174]); (49, [3175]); (50, [3176]); (51, [3177]); (52, [3178]); (53, [3179]); (54, [3180]); (55, [3181]); (56, [3182]); (57, [3183])]).

(** decoder/international.rs:247-261 *)
Definition intl_assamese : string * list (Z * ustring) := ("Assamese",
  [(48, [2534]); (49, [2535]); (50, [2536]); (51, [2537]); (52, [2538]); (53, [2539]); (54, [2540]); (55, [2541]); (56, [2542]); (57, [2543])]).

(** decoder/international.rs:263-277 *)
Definition intl_oriya : string * list (Z * ustring) := ("Oriya",
  [(48, [2918]); (49, [2919]); (50, [2920]); (51, [2921]); (52, [2922]); (53, [2923]); (54, [2924]); (55, [2925]); (56, [2926]); (57, [2927])]).

(** decoder/international.rs:279-293 *)
Definition intl_kannada : string * list (Z * ustring) := ("Kannada",
  [(48, [3302]); (49, [3303]); (50, [3304]); (51, [3305]); (52, [3306]); (53, [3307]); (54, [3308]); (55, [3309]); (56, [3310]); (57, [3311])]).

(** decoder/international.rs:295-309 *)
Definition intl_malayalam : string * list (Z * ustring) := ("Malayalam",
  [(48, [3430]); (49, [3431]); (50, [3432]); (51, [3433]); (52, [3434]); (53, [3435]); (54, [3436]); (55, [3437]); (56, [3438]); (57, [3439])]).

(** decoder/international.rs:311-325 *)
Definition intl_gujarati : string * list (Z * ustring) := ("Gujarati",
  [(48, [2790]); (49, [2791]); (50, [2792]); (51, [2793]); (52, [2794]); (53, [2795]); (54, [2796]); (55, [2797]); (56, [2798]); (57, [2799])]).

(** decoder/international.rs:327-341 *)
Definition intl_punjabi : string * list (Z * ustring) := ("Punjabi",
  [(48, [2662]); (49, [2663]); (50, [2664]); (51, [2665]); (52, [2666]); (53, [2667]); (54, [2668]); (55, [2669]); (56, [2670]); (57, [2671])]).

(** decoder/international.rs:343-357 *)
Definition intl_marathi : string * list (Z * ustring) := ("Marathi",
  [(48, [2406]); (49, [2407]); (50, [2408]); (51, [2409]); (52, [2410]); (53, [2411]); (54, [2412]); (55, [2413]); (56, [2414]); (57, [2415])]).
