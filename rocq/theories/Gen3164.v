(* GENERATED by tools/ragel2coq.py from /repo/rfc3164/machine.go lines 111-7251. Do not edit. *)
(* One entry per Go label, in source order; the comment gives the line of the label. *)
From Coq Require Import List NArith.
From Verif Require Import GotoLang M3164Def.
Import ListNotations. Local Open Scope N_scope.

(* /repo/rfc3164/machine.go *)
Definition prog3164_0 : list (label * code act cnd) := [
  (* machine.go:112 entry *) (LEntry, (KIf CPe (KGoto LEof KNil) KNil (KBlk (KIf (CCs [1]) (KGoto (LCase 1) KNil) (KIf (CCs [0]) (KGoto (LCase 0) KNil) (KIf (CCs [2]) (KGoto (LCase 2) KNil) (KIf (CCs [3]) (KGoto (LCase 3) KNil) (KIf (CCs [4]) (KGoto (LCase 4) KNil) (KIf (CCs [5]) (KGoto (LCase 5) KNil) (KIf (CCs [6]) (KGoto (LCase 6) KNil) (KIf (CCs [7]) (KGoto (LCase 7) KNil) (KIf (CCs [8]) (KGoto (LCase 8) KNil) (KIf (CCs [9]) (KGoto (LCase 9) KNil) (KIf (CCs [10]) (KGoto (LCase 10) KNil) (KIf (CCs [11]) (KGoto (LCase 11) KNil) (KIf (CCs [12]) (KGoto (LCase 12) KNil) (KIf (CCs [13]) (KGoto (LCase 13) KNil) (KIf (CCs [14]) (KGoto (LCase 14) KNil) (KIf (CCs [15]) (KGoto (LCase 15) KNil) (KIf (CCs [16]) (KGoto (LCase 16) KNil) (KIf (CCs [17]) (KGoto (LCase 17) KNil) (KIf (CCs [18]) (KGoto (LCase 18) KNil) (KIf (CCs [19]) (KGoto (LCase 19) KNil) (KIf (CCs [20]) (KGoto (LCase 20) KNil) (KIf (CCs [21]) (KGoto (LCase 21) KNil) (KIf (CCs [22]) (KGoto (LCase 22) KNil) (KIf (CCs [333]) (KGoto (LCase 333) KNil) (KIf (CCs [334]) (KGoto (LCase 334) KNil) (KIf (CCs [335]) (KGoto (LCase 335) KNil) (KIf (CCs [336]) (KGoto (LCase 336) KNil) (KIf (CCs [337]) (KGoto (LCase 337) KNil) (KIf (CCs [338]) (KGoto (LCase 338) KNil) (KIf (CCs [339]) (KGoto (LCase 339) KNil) (KIf (CCs [340]) (KGoto (LCase 340) KNil) (KIf (CCs [341]) (KGoto (LCase 341) KNil) (KIf (CCs [342]) (KGoto (LCase 342) KNil) (KIf (CCs [343]) (KGoto (LCase 343) KNil) (KIf (CCs [344]) (KGoto (LCase 344) KNil) (KIf (CCs [345]) (KGoto (LCase 345) KNil) (KIf (CCs [346]) (KGoto (LCase 346) KNil) (KIf (CCs [347]) (KGoto (LCase 347) KNil) (KIf (CCs [348]) (KGoto (LCase 348) KNil) (KIf (CCs [349]) (KGoto (LCase 349) KNil) (KIf (CCs [350]) (KGoto (LCase 350) KNil) (KIf (CCs [351]) (KGoto (LCase 351) KNil) (KIf (CCs [352]) (KGoto (LCase 352) KNil) (KIf (CCs [353]) (KGoto (LCase 353) KNil) (KIf (CCs [354]) (KGoto (LCase 354) KNil) (KIf (CCs [355]) (KGoto (LCase 355) KNil) (KIf (CCs [356]) (KGoto (LCase 356) KNil) (KIf (CCs [357]) (KGoto (LCase 357) KNil) (KIf (CCs [358]) (KGoto (LCase 358) KNil) (KIf (CCs [359]) (KGoto (LCase 359) KNil) (KIf (CCs [360]) (KGoto (LCase 360) KNil) (KIf (CCs [361]) (KGoto (LCase 361) KNil) (KIf (CCs [362]) (KGoto (LCase 362) KNil) (KIf (CCs [363]) (KGoto (LCase 363) KNil) (KIf (CCs [364]) (KGoto (LCase 364) KNil) (KIf (CCs [365]) (KGoto (LCase 365) KNil) (KIf (CCs [366]) (KGoto (LCase 366) KNil) (KIf (CCs [367]) (KGoto (LCase 367) KNil) (KIf (CCs [368]) (KGoto (LCase 368) KNil) (KIf (CCs [23]) (KGoto (LCase 23) KNil) (KIf (CCs [24]) (KGoto (LCase 24) KNil) (KIf (CCs [25]) (KGoto (LCase 25) KNil) (KIf (CCs [26]) (KGoto (LCase 26) KNil) (KIf (CCs [369]) (KGoto (LCase 369) KNil) (KIf (CCs [370]) (KGoto (LCase 370) KNil) (KIf (CCs [371]) (KGoto (LCase 371) KNil) (KIf (CCs [372]) (KGoto (LCase 372) KNil) (KIf (CCs [27]) (KGoto (LCase 27) KNil) (KIf (CCs [28]) (KGoto (LCase 28) KNil) (KIf (CCs [29]) (KGoto (LCase 29) KNil) (KIf (CCs [30]) (KGoto (LCase 30) KNil) (KIf (CCs [31]) (KGoto (LCase 31) KNil) (KIf (CCs [32]) (KGoto (LCase 32) KNil) (KIf (CCs [33]) (KGoto (LCase 33) KNil) (KIf (CCs [34]) (KGoto (LCase 34) KNil) (KIf (CCs [35]) (KGoto (LCase 35) KNil) (KIf (CCs [36]) (KGoto (LCase 36) KNil) (KIf (CCs [37]) (KGoto (LCase 37) KNil) (KIf (CCs [38]) (KGoto (LCase 38) KNil) (KIf (CCs [39]) (KGoto (LCase 39) KNil) (KIf (CCs [40]) (KGoto (LCase 40) KNil) (KIf (CCs [41]) (KGoto (LCase 41) KNil) (KIf (CCs [42]) (KGoto (LCase 42) KNil) (KIf (CCs [43]) (KGoto (LCase 43) KNil) (KIf (CCs [44]) (KGoto (LCase 44) KNil) (KIf (CCs [45]) (KGoto (LCase 45) KNil) (KIf (CCs [46]) (KGoto (LCase 46) KNil) (KIf (CCs [47]) (KGoto (LCase 47) KNil) (KIf (CCs [48]) (KGoto (LCase 48) KNil) (KIf (CCs [49]) (KGoto (LCase 49) KNil) (KIf (CCs [50]) (KGoto (LCase 50) KNil) (KIf (CCs [51]) (KGoto (LCase 51) KNil) (KIf (CCs [52]) (KGoto (LCase 52) KNil) (KIf (CCs [53]) (KGoto (LCase 53) KNil) (KIf (CCs [54]) (KGoto (LCase 54) KNil) (KIf (CCs [55]) (KGoto (LCase 55) KNil) (KIf (CCs [56]) (KGoto (LCase 56) KNil) (KIf (CCs [57]) (KGoto (LCase 57) KNil) (KIf (CCs [58]) (KGoto (LCase 58) KNil) (KIf (CCs [59]) (KGoto (LCase 59) KNil) (KIf (CCs [60]) (KGoto (LCase 60) KNil) (KIf (CCs [61]) (KGoto (LCase 61) KNil) (KIf (CCs [62]) (KGoto (LCase 62) KNil) (KIf (CCs [63]) (KGoto (LCase 63) KNil) (KIf (CCs [64]) (KGoto (LCase 64) KNil) (KIf (CCs [65]) (KGoto (LCase 65) KNil) (KIf (CCs [66]) (KGoto (LCase 66) KNil) (KIf (CCs [67]) (KGoto (LCase 67) KNil) (KIf (CCs [68]) (KGoto (LCase 68) KNil) (KIf (CCs [69]) (KGoto (LCase 69) KNil) (KIf (CCs [70]) (KGoto (LCase 70) KNil) (KIf (CCs [71]) (KGoto (LCase 71) KNil) (KIf (CCs [72]) (KGoto (LCase 72) KNil) (KIf (CCs [73]) (KGoto (LCase 73) KNil) (KIf (CCs [74]) (KGoto (LCase 74) KNil) (KIf (CCs [75]) (KGoto (LCase 75) KNil) (KIf (CCs [76]) (KGoto (LCase 76) KNil) (KIf (CCs [77]) (KGoto (LCase 77) KNil) (KIf (CCs [78]) (KGoto (LCase 78) KNil) (KIf (CCs [79]) (KGoto (LCase 79) KNil) (KIf (CCs [80]) (KGoto (LCase 80) KNil) (KIf (CCs [81]) (KGoto (LCase 81) KNil) (KIf (CCs [82]) (KGoto (LCase 82) KNil) (KIf (CCs [83]) (KGoto (LCase 83) KNil) (KIf (CCs [84]) (KGoto (LCase 84) KNil) (KIf (CCs [85]) (KGoto (LCase 85) KNil) (KIf (CCs [86]) (KGoto (LCase 86) KNil) (KIf (CCs [87]) (KGoto (LCase 87) KNil) (KIf (CCs [88]) (KGoto (LCase 88) KNil) (KIf (CCs [89]) (KGoto (LCase 89) KNil) (KIf (CCs [90]) (KGoto (LCase 90) KNil) (KIf (CCs [91]) (KGoto (LCase 91) KNil) (KIf (CCs [92]) (KGoto (LCase 92) KNil) (KIf (CCs [93]) (KGoto (LCase 93) KNil) (KIf (CCs [94]) (KGoto (LCase 94) KNil) (KIf (CCs [95]) (KGoto (LCase 95) KNil) (KIf (CCs [96]) (KGoto (LCase 96) KNil) (KIf (CCs [97]) (KGoto (LCase 97) KNil) (KIf (CCs [98]) (KGoto (LCase 98) KNil) (KIf (CCs [99]) (KGoto (LCase 99) KNil) (KIf (CCs [100]) (KGoto (LCase 100) KNil) (KIf (CCs [101]) (KGoto (LCase 101) KNil) (KIf (CCs [102]) (KGoto (LCase 102) KNil) (KIf (CCs [103]) (KGoto (LCase 103) KNil) (KIf (CCs [104]) (KGoto (LCase 104) KNil) (KIf (CCs [105]) (KGoto (LCase 105) KNil) (KIf (CCs [106]) (KGoto (LCase 106) KNil) (KIf (CCs [107]) (KGoto (LCase 107) KNil) (KIf (CCs [108]) (KGoto (LCase 108) KNil) (KIf (CCs [109]) (KGoto (LCase 109) KNil) (KIf (CCs [110]) (KGoto (LCase 110) KNil) (KIf (CCs [111]) (KGoto (LCase 111) KNil) (KIf (CCs [112]) (KGoto (LCase 112) KNil) (KIf (CCs [113]) (KGoto (LCase 113) KNil) (KIf (CCs [114]) (KGoto (LCase 114) KNil) (KIf (CCs [115]) (KGoto (LCase 115) KNil) (KIf (CCs [116]) (KGoto (LCase 116) KNil) (KIf (CCs [117]) (KGoto (LCase 117) KNil) (KIf (CCs [118]) (KGoto (LCase 118) KNil) (KIf (CCs [119]) (KGoto (LCase 119) KNil) (KIf (CCs [120]) (KGoto (LCase 120) KNil) (KIf (CCs [121]) (KGoto (LCase 121) KNil) (KIf (CCs [122]) (KGoto (LCase 122) KNil) (KIf (CCs [123]) (KGoto (LCase 123) KNil) (KIf (CCs [124]) (KGoto (LCase 124) KNil) (KIf (CCs [125]) (KGoto (LCase 125) KNil) (KIf (CCs [126]) (KGoto (LCase 126) KNil) (KIf (CCs [127]) (KGoto (LCase 127) KNil) (KIf (CCs [128]) (KGoto (LCase 128) KNil) (KIf (CCs [129]) (KGoto (LCase 129) KNil) (KIf (CCs [130]) (KGoto (LCase 130) KNil) (KIf (CCs [131]) (KGoto (LCase 131) KNil) (KIf (CCs [132]) (KGoto (LCase 132) KNil) (KIf (CCs [133]) (KGoto (LCase 133) KNil) (KIf (CCs [134]) (KGoto (LCase 134) KNil) (KIf (CCs [135]) (KGoto (LCase 135) KNil) (KIf (CCs [136]) (KGoto (LCase 136) KNil) (KIf (CCs [137]) (KGoto (LCase 137) KNil) (KIf (CCs [138]) (KGoto (LCase 138) KNil) (KIf (CCs [139]) (KGoto (LCase 139) KNil) (KIf (CCs [140]) (KGoto (LCase 140) KNil) (KIf (CCs [141]) (KGoto (LCase 141) KNil) (KIf (CCs [142]) (KGoto (LCase 142) KNil) (KIf (CCs [143]) (KGoto (LCase 143) KNil) (KIf (CCs [144]) (KGoto (LCase 144) KNil) (KIf (CCs [145]) (KGoto (LCase 145) KNil) (KIf (CCs [146]) (KGoto (LCase 146) KNil) (KIf (CCs [147]) (KGoto (LCase 147) KNil) (KIf (CCs [148]) (KGoto (LCase 148) KNil) (KIf (CCs [149]) (KGoto (LCase 149) KNil) (KIf (CCs [150]) (KGoto (LCase 150) KNil) (KIf (CCs [151]) (KGoto (LCase 151) KNil) (KIf (CCs [152]) (KGoto (LCase 152) KNil) (KIf (CCs [153]) (KGoto (LCase 153) KNil) (KIf (CCs [154]) (KGoto (LCase 154) KNil) (KIf (CCs [155]) (KGoto (LCase 155) KNil) (KIf (CCs [156]) (KGoto (LCase 156) KNil) (KIf (CCs [157]) (KGoto (LCase 157) KNil) (KIf (CCs [158]) (KGoto (LCase 158) KNil) (KIf (CCs [159]) (KGoto (LCase 159) KNil) (KIf (CCs [160]) (KGoto (LCase 160) KNil) (KIf (CCs [161]) (KGoto (LCase 161) KNil) (KIf (CCs [162]) (KGoto (LCase 162) KNil) (KIf (CCs [163]) (KGoto (LCase 163) KNil) (KIf (CCs [164]) (KGoto (LCase 164) KNil) (KIf (CCs [165]) (KGoto (LCase 165) KNil) (KIf (CCs [166]) (KGoto (LCase 166) KNil) (KIf (CCs [167]) (KGoto (LCase 167) KNil) (KIf (CCs [168]) (KGoto (LCase 168) KNil) (KIf (CCs [169]) (KGoto (LCase 169) KNil) (KIf (CCs [170]) (KGoto (LCase 170) KNil) (KIf (CCs [171]) (KGoto (LCase 171) KNil) (KIf (CCs [172]) (KGoto (LCase 172) KNil) (KIf (CCs [173]) (KGoto (LCase 173) KNil) (KIf (CCs [174]) (KGoto (LCase 174) KNil) (KIf (CCs [175]) (KGoto (LCase 175) KNil) (KIf (CCs [176]) (KGoto (LCase 176) KNil) (KIf (CCs [177]) (KGoto (LCase 177) KNil) (KIf (CCs [178]) (KGoto (LCase 178) KNil) (KIf (CCs [179]) (KGoto (LCase 179) KNil) (KIf (CCs [180]) (KGoto (LCase 180) KNil) (KIf (CCs [181]) (KGoto (LCase 181) KNil) (KIf (CCs [182]) (KGoto (LCase 182) KNil) (KIf (CCs [183]) (KGoto (LCase 183) KNil) (KIf (CCs [184]) (KGoto (LCase 184) KNil) (KIf (CCs [185]) (KGoto (LCase 185) KNil) (KIf (CCs [186]) (KGoto (LCase 186) KNil) (KIf (CCs [187]) (KGoto (LCase 187) KNil) (KIf (CCs [188]) (KGoto (LCase 188) KNil) (KIf (CCs [189]) (KGoto (LCase 189) KNil) (KIf (CCs [190]) (KGoto (LCase 190) KNil) (KIf (CCs [191]) (KGoto (LCase 191) KNil) (KIf (CCs [192]) (KGoto (LCase 192) KNil) (KIf (CCs [193]) (KGoto (LCase 193) KNil) (KIf (CCs [194]) (KGoto (LCase 194) KNil) (KIf (CCs [195]) (KGoto (LCase 195) KNil) (KIf (CCs [196]) (KGoto (LCase 196) KNil) (KIf (CCs [197]) (KGoto (LCase 197) KNil) (KIf (CCs [198]) (KGoto (LCase 198) KNil) (KIf (CCs [199]) (KGoto (LCase 199) KNil) (KIf (CCs [200]) (KGoto (LCase 200) KNil) (KIf (CCs [201]) (KGoto (LCase 201) KNil) (KIf (CCs [202]) (KGoto (LCase 202) KNil) (KIf (CCs [203]) (KGoto (LCase 203) KNil) (KIf (CCs [204]) (KGoto (LCase 204) KNil) (KIf (CCs [205]) (KGoto (LCase 205) KNil) (KIf (CCs [206]) (KGoto (LCase 206) KNil) (KIf (CCs [207]) (KGoto (LCase 207) KNil) (KIf (CCs [208]) (KGoto (LCase 208) KNil) (KIf (CCs [209]) (KGoto (LCase 209) KNil) (KIf (CCs [210]) (KGoto (LCase 210) KNil) (KIf (CCs [211]) (KGoto (LCase 211) KNil) (KIf (CCs [212]) (KGoto (LCase 212) KNil) (KIf (CCs [213]) (KGoto (LCase 213) KNil) (KIf (CCs [214]) (KGoto (LCase 214) KNil) (KIf (CCs [215]) (KGoto (LCase 215) KNil) (KIf (CCs [216]) (KGoto (LCase 216) KNil) (KIf (CCs [217]) (KGoto (LCase 217) KNil) (KIf (CCs [218]) (KGoto (LCase 218) KNil) (KIf (CCs [219]) (KGoto (LCase 219) KNil) (KIf (CCs [220]) (KGoto (LCase 220) KNil) (KIf (CCs [221]) (KGoto (LCase 221) KNil) (KIf (CCs [222]) (KGoto (LCase 222) KNil) (KIf (CCs [223]) (KGoto (LCase 223) KNil) (KIf (CCs [224]) (KGoto (LCase 224) KNil) (KIf (CCs [225]) (KGoto (LCase 225) KNil) (KIf (CCs [226]) (KGoto (LCase 226) KNil) (KIf (CCs [227]) (KGoto (LCase 227) KNil) (KIf (CCs [228]) (KGoto (LCase 228) KNil) (KIf (CCs [229]) (KGoto (LCase 229) KNil) (KIf (CCs [230]) (KGoto (LCase 230) KNil) (KIf (CCs [231]) (KGoto (LCase 231) KNil) (KIf (CCs [232]) (KGoto (LCase 232) KNil) (KIf (CCs [233]) (KGoto (LCase 233) KNil) (KIf (CCs [234]) (KGoto (LCase 234) KNil) (KIf (CCs [235]) (KGoto (LCase 235) KNil) (KIf (CCs [236]) (KGoto (LCase 236) KNil) (KIf (CCs [237]) (KGoto (LCase 237) KNil) (KIf (CCs [238]) (KGoto (LCase 238) KNil) (KIf (CCs [239]) (KGoto (LCase 239) KNil) (KIf (CCs [240]) (KGoto (LCase 240) KNil) (KIf (CCs [241]) (KGoto (LCase 241) KNil) (KIf (CCs [242]) (KGoto (LCase 242) KNil) (KIf (CCs [243]) (KGoto (LCase 243) KNil) (KIf (CCs [244]) (KGoto (LCase 244) KNil) (KIf (CCs [245]) (KGoto (LCase 245) KNil) (KIf (CCs [246]) (KGoto (LCase 246) KNil) (KIf (CCs [247]) (KGoto (LCase 247) KNil) (KIf (CCs [248]) (KGoto (LCase 248) KNil) (KIf (CCs [249]) (KGoto (LCase 249) KNil) (KIf (CCs [250]) (KGoto (LCase 250) KNil) (KIf (CCs [251]) (KGoto (LCase 251) KNil) (KIf (CCs [252]) (KGoto (LCase 252) KNil) (KIf (CCs [253]) (KGoto (LCase 253) KNil) (KIf (CCs [254]) (KGoto (LCase 254) KNil) (KIf (CCs [255]) (KGoto (LCase 255) KNil) (KIf (CCs [256]) (KGoto (LCase 256) KNil) (KIf (CCs [257]) (KGoto (LCase 257) KNil) (KIf (CCs [258]) (KGoto (LCase 258) KNil) (KIf (CCs [259]) (KGoto (LCase 259) KNil) (KIf (CCs [260]) (KGoto (LCase 260) KNil) (KIf (CCs [261]) (KGoto (LCase 261) KNil) (KIf (CCs [262]) (KGoto (LCase 262) KNil) (KIf (CCs [263]) (KGoto (LCase 263) KNil) (KIf (CCs [264]) (KGoto (LCase 264) KNil) (KIf (CCs [265]) (KGoto (LCase 265) KNil) (KIf (CCs [266]) (KGoto (LCase 266) KNil) (KIf (CCs [267]) (KGoto (LCase 267) KNil) (KIf (CCs [268]) (KGoto (LCase 268) KNil) (KIf (CCs [269]) (KGoto (LCase 269) KNil) (KIf (CCs [270]) (KGoto (LCase 270) KNil) (KIf (CCs [271]) (KGoto (LCase 271) KNil) (KIf (CCs [272]) (KGoto (LCase 272) KNil) (KIf (CCs [273]) (KGoto (LCase 273) KNil) (KIf (CCs [274]) (KGoto (LCase 274) KNil) (KIf (CCs [275]) (KGoto (LCase 275) KNil) (KIf (CCs [276]) (KGoto (LCase 276) KNil) (KIf (CCs [277]) (KGoto (LCase 277) KNil) (KIf (CCs [278]) (KGoto (LCase 278) KNil) (KIf (CCs [279]) (KGoto (LCase 279) KNil) (KIf (CCs [280]) (KGoto (LCase 280) KNil) (KIf (CCs [281]) (KGoto (LCase 281) KNil) (KIf (CCs [282]) (KGoto (LCase 282) KNil) (KIf (CCs [283]) (KGoto (LCase 283) KNil) (KIf (CCs [284]) (KGoto (LCase 284) KNil) (KIf (CCs [285]) (KGoto (LCase 285) KNil) (KIf (CCs [286]) (KGoto (LCase 286) KNil) (KIf (CCs [287]) (KGoto (LCase 287) KNil) (KIf (CCs [288]) (KGoto (LCase 288) KNil) (KIf (CCs [289]) (KGoto (LCase 289) KNil) (KIf (CCs [290]) (KGoto (LCase 290) KNil) (KIf (CCs [291]) (KGoto (LCase 291) KNil) (KIf (CCs [292]) (KGoto (LCase 292) KNil) (KIf (CCs [293]) (KGoto (LCase 293) KNil) (KIf (CCs [294]) (KGoto (LCase 294) KNil) (KIf (CCs [295]) (KGoto (LCase 295) KNil) (KIf (CCs [296]) (KGoto (LCase 296) KNil) (KIf (CCs [297]) (KGoto (LCase 297) KNil) (KIf (CCs [298]) (KGoto (LCase 298) KNil) (KIf (CCs [299]) (KGoto (LCase 299) KNil) (KIf (CCs [300]) (KGoto (LCase 300) KNil) (KIf (CCs [301]) (KGoto (LCase 301) KNil) (KIf (CCs [302]) (KGoto (LCase 302) KNil) (KIf (CCs [303]) (KGoto (LCase 303) KNil) (KIf (CCs [304]) (KGoto (LCase 304) KNil) (KIf (CCs [305]) (KGoto (LCase 305) KNil) (KIf (CCs [306]) (KGoto (LCase 306) KNil) (KIf (CCs [307]) (KGoto (LCase 307) KNil) (KIf (CCs [308]) (KGoto (LCase 308) KNil) (KIf (CCs [309]) (KGoto (LCase 309) KNil) (KIf (CCs [310]) (KGoto (LCase 310) KNil) (KIf (CCs [311]) (KGoto (LCase 311) KNil) (KIf (CCs [312]) (KGoto (LCase 312) KNil) (KIf (CCs [313]) (KGoto (LCase 313) KNil) (KIf (CCs [314]) (KGoto (LCase 314) KNil) (KIf (CCs [315]) (KGoto (LCase 315) KNil) (KIf (CCs [316]) (KGoto (LCase 316) KNil) (KIf (CCs [317]) (KGoto (LCase 317) KNil) (KIf (CCs [318]) (KGoto (LCase 318) KNil) (KIf (CCs [319]) (KGoto (LCase 319) KNil) (KIf (CCs [320]) (KGoto (LCase 320) KNil) (KIf (CCs [321]) (KGoto (LCase 321) KNil) (KIf (CCs [322]) (KGoto (LCase 322) KNil) (KIf (CCs [323]) (KGoto (LCase 323) KNil) (KIf (CCs [324]) (KGoto (LCase 324) KNil) (KIf (CCs [325]) (KGoto (LCase 325) KNil) (KIf (CCs [326]) (KGoto (LCase 326) KNil) (KIf (CCs [327]) (KGoto (LCase 327) KNil) (KIf (CCs [328]) (KGoto (LCase 328) KNil) (KIf (CCs [329]) (KGoto (LCase 329) KNil) (KIf (CCs [330]) (KGoto (LCase 330) KNil) (KIf (CCs [331]) (KGoto (LCase 331) KNil) (KIf (CCs [332]) (KGoto (LCase 332) KNil) (KIf (CCs [373]) (KGoto (LCase 373) KNil) KNil KNil) KNil) KNil) KNil) KNil) KNil) KNil) KNil) KNil) KNil) KNil) KNil) KNil) KNil) KNil) KNil) KNil) KNil) KNil) KNil) KNil) KNil) KNil) KNil) KNil) KNil) KNil) KNil) KNil) KNil) KNil) KNil) KNil) KNil) KNil) KNil) KNil) KNil) KNil) KNil) KNil) KNil) KNil) KNil) KNil) KNil) KNil) KNil) KNil) KNil) KNil) KNil) KNil) KNil) KNil) KNil) KNil) KNil) KNil) KNil) KNil) KNil) KNil) KNil) KNil) KNil) KNil) KNil) KNil) KNil) KNil) KNil) KNil) KNil) KNil) KNil) KNil) KNil) KNil) KNil) KNil) KNil) KNil) KNil) KNil) KNil) KNil) KNil) KNil) KNil) KNil) KNil) KNil) KNil) KNil) KNil) KNil) KNil) KNil) KNil) KNil) KNil) KNil) KNil) KNil) KNil) KNil) KNil) KNil) KNil) KNil) KNil) KNil) KNil) KNil) KNil) KNil) KNil) KNil) KNil) KNil) KNil) KNil) KNil) KNil) KNil) KNil) KNil) KNil) KNil) KNil) KNil) KNil) KNil) KNil) KNil) KNil) KNil) KNil) KNil) KNil) KNil) KNil) KNil) KNil) KNil) KNil) KNil) KNil) KNil) KNil) KNil) KNil) KNil) KNil) KNil) KNil) KNil) KNil) KNil) KNil) KNil) KNil) KNil) KNil) KNil) KNil) KNil) KNil) KNil) KNil) KNil) KNil) KNil) KNil) KNil) KNil) KNil) KNil) KNil) KNil) KNil) KNil) KNil) KNil) KNil) KNil) KNil) KNil) KNil) KNil) KNil) KNil) KNil) KNil) KNil) KNil) KNil) KNil) KNil) KNil) KNil) KNil) KNil) KNil) KNil) KNil) KNil) KNil) KNil) KNil) KNil) KNil) KNil) KNil) KNil) KNil) KNil) KNil) KNil) KNil) KNil) KNil) KNil) KNil) KNil) KNil) KNil) KNil) KNil) KNil) KNil) KNil) KNil) KNil) KNil) KNil) KNil) KNil) KNil) KNil) KNil) KNil) KNil) KNil) KNil) KNil) KNil) KNil) KNil) KNil) KNil) KNil) KNil) KNil) KNil) KNil) KNil) KNil) KNil) KNil) KNil) KNil) KNil) KNil) KNil) KNil) KNil) KNil) KNil) KNil) KNil) KNil) KNil) KNil) KNil) KNil) KNil) KNil) KNil) KNil) KNil) KNil) KNil) KNil) KNil) KNil) KNil) KNil) KNil) KNil) KNil) KNil) KNil) KNil) KNil) KNil) KNil) KNil) KNil) KNil) KNil) KNil) KNil) KNil) KNil) KNil) KNil) KNil) KNil) KNil) KNil) KNil) KNil) KNil) KNil) KNil) KNil) KNil) KNil) KNil) KNil) KNil) KNil) KNil) KNil) KNil) KNil) KNil) KNil) KNil) KNil) KNil) KNil) KNil) KNil) KNil) KNil) KNil) KNil) KNil) KNil) KNil) KNil) KNil) KNil) KNil) KNil) KNil) KNil) KNil) KNil) KNil) KNil) KNil) KNil) KNil) KNil) KNil) KNil) KNil) KNil) KNil) KNil) KNil) KNil) KNil) KNil) KNil) KNil) KNil) KNil) KNil) KNil) (KGoto LStOut KNil))));
  (* machine.go:866 stCase1 *) ((LCase 1), (KIf (CByte OEq 60) (KGoto (LSt 2) KNil) KNil (KGoto (LTr 0) KNil)));
  (* machine.go:871 tr0 *) ((LTr 0), (KAct (AErr EPri) (KDec (KBlk (KGoto (LSt 373) KNil) (KGoto (LSt 0) KNil)))));
  (* machine.go:881 tr2 *) ((LTr 2), (KAct (AErr EPrival) (KDec (KBlk (KGoto (LSt 373) KNil) (KAct (AErr EPri) (KDec (KBlk (KGoto (LSt 373) KNil) (KGoto (LSt 0) KNil))))))));
  (* machine.go:898 tr7 *) ((LTr 7), (KAct (AErr ETimestamp) (KDec (KBlk (KGoto (LSt 373) KNil) (KGoto (LSt 0) KNil)))));
  (* machine.go:908 tr37 *) ((LTr 37), (KAct (AErr EHostname) (KDec (KBlk (KGoto (LSt 373) KNil) (KGoto (LSt 0) KNil)))));
  (* machine.go:918 tr41 *) ((LTr 41), (KAct (AErr ETag) (KDec (KBlk (KGoto (LSt 373) KNil) (KGoto (LSt 0) KNil)))));
  (* machine.go:928 tr333 *) ((LTr 333), (KAct (AErr ERFC3339) (KDec (KBlk (KGoto (LSt 373) KNil) (KGoto (LSt 0) KNil)))));
  (* machine.go:938 stCase0 *) ((LCase 0), KNil);
  (* machine.go:939 st0 *) ((LSt 0), (KCs 0 (KGoto LOut KNil)));
  (* machine.go:942 st2 *) ((LSt 2), (KInc (KIf CPe (KGoto (LEofN 2) KNil) KNil KNil)));
  (* machine.go:946 stCase2 *) ((LCase 2), (KBlk (KIf (CByte OEq 48) (KGoto (LTr 3) KNil) (KIf (CByte OEq 49) (KGoto (LTr 4) KNil) KNil KNil) KNil) (KIf (CAnd (CByte OGe 50) (CByte OLe 57)) (KGoto (LTr 5) KNil) KNil (KGoto (LTr 2) KNil))));
  (* machine.go:957 tr3 *) ((LTr 3), (KAct APb (KGoto (LSt 3) KNil)));
  (* machine.go:962 st3 *) ((LSt 3), (KInc (KIf CPe (KGoto (LEofN 3) KNil) KNil KNil)));
  (* machine.go:966 stCase3 *) ((LCase 3), (KAct APriority (KAct APrioritySet (KIf (CByte OEq 62) (KGoto (LSt 4) KNil) KNil (KGoto (LTr 2) KNil)))));
  (* machine.go:975 st4 *) ((LSt 4), (KInc (KIf CPe (KGoto (LEofN 4) KNil) KNil KNil)));
  (* machine.go:979 stCase4 *) ((LCase 4), (KWide 0 (KIf (CAnd (CByte OGe 48) (CByte OLe 57)) (KWide 256 (KIf (CExt CRfc3339) (KWideAdd 256 KNil) KNil KNil)) KNil (KBlk (KIf (CWide OEq 65) (KGoto (LTr 8) KNil) (KIf (CWide OEq 68) (KGoto (LTr 9) KNil) (KIf (CWide OEq 70) (KGoto (LTr 10) KNil) (KIf (CWide OEq 74) (KGoto (LTr 11) KNil) (KIf (CWide OEq 77) (KGoto (LTr 12) KNil) (KIf (CWide OEq 78) (KGoto (LTr 13) KNil) (KIf (CWide OEq 79) (KGoto (LTr 14) KNil) (KIf (CWide OEq 83) (KGoto (LTr 15) KNil) KNil KNil) KNil) KNil) KNil) KNil) KNil) KNil) KNil) (KIf (CAnd (CWide OGe 560) (CWide OLe 569)) (KGoto (LTr 16) KNil) KNil (KGoto (LTr 7) KNil))))));
  (* machine.go:1009 tr8 *) ((LTr 8), (KAct APb (KGoto (LSt 5) KNil)));
  (* machine.go:1014 st5 *) ((LSt 5), (KInc (KIf CPe (KGoto (LEofN 5) KNil) KNil KNil)));
  (* machine.go:1018 stCase5 *) ((LCase 5), (KBlk (KIf (CByte OEq 112) (KGoto (LSt 6) KNil) (KIf (CByte OEq 117) (KGoto (LSt 284) KNil) KNil KNil) KNil) (KGoto (LTr 7) KNil)));
  (* machine.go:1026 st6 *) ((LSt 6), (KInc (KIf CPe (KGoto (LEofN 6) KNil) KNil KNil)));
  (* machine.go:1030 stCase6 *) ((LCase 6), (KIf (CByte OEq 114) (KGoto (LSt 7) KNil) KNil (KGoto (LTr 7) KNil)));
  (* machine.go:1035 st7 *) ((LSt 7), (KInc (KIf CPe (KGoto (LEofN 7) KNil) KNil KNil)));
  (* machine.go:1039 stCase7 *) ((LCase 7), (KIf (CByte OEq 32) (KGoto (LSt 8) KNil) KNil (KGoto (LTr 7) KNil)));
  (* machine.go:1044 st8 *) ((LSt 8), (KInc (KIf CPe (KGoto (LEofN 8) KNil) KNil KNil)));
  (* machine.go:1048 stCase8 *) ((LCase 8), (KBlk (KIf (CByte OEq 32) (KGoto (LSt 9) KNil) (KIf (CByte OEq 51) (KGoto (LSt 283) KNil) KNil KNil) KNil) (KIf (CAnd (CByte OGe 49) (CByte OLe 50)) (KGoto (LSt 282) KNil) KNil (KGoto (LTr 7) KNil))));
  (* machine.go:1059 st9 *) ((LSt 9), (KInc (KIf CPe (KGoto (LEofN 9) KNil) KNil KNil)));
  (* machine.go:1063 stCase9 *) ((LCase 9), (KIf (CAnd (CByte OGe 49) (CByte OLe 57)) (KGoto (LSt 10) KNil) KNil (KGoto (LTr 7) KNil)));
  (* machine.go:1068 st10 *) ((LSt 10), (KInc (KIf CPe (KGoto (LEofN 10) KNil) KNil KNil)));
  (* machine.go:1072 stCase10 *) ((LCase 10), (KIf (CByte OEq 32) (KGoto (LSt 11) KNil) KNil (KGoto (LTr 7) KNil)));
  (* machine.go:1077 st11 *) ((LSt 11), (KInc (KIf CPe (KGoto (LEofN 11) KNil) KNil KNil)));
  (* machine.go:1081 stCase11 *) ((LCase 11), (KIf (CByte OEq 50) (KGoto (LSt 281) KNil) KNil (KIf (CAnd (CByte OGe 48) (CByte OLe 49)) (KGoto (LSt 12) KNil) KNil (KGoto (LTr 7) KNil))));
  (* machine.go:1089 st12 *) ((LSt 12), (KInc (KIf CPe (KGoto (LEofN 12) KNil) KNil KNil)));
  (* machine.go:1093 stCase12 *) ((LCase 12), (KIf (CAnd (CByte OGe 48) (CByte OLe 57)) (KGoto (LSt 13) KNil) KNil (KGoto (LTr 7) KNil)));
  (* machine.go:1098 st13 *) ((LSt 13), (KInc (KIf CPe (KGoto (LEofN 13) KNil) KNil KNil)));
  (* machine.go:1102 stCase13 *) ((LCase 13), (KIf (CByte OEq 58) (KGoto (LSt 14) KNil) KNil (KGoto (LTr 7) KNil)));
  (* machine.go:1107 st14 *) ((LSt 14), (KInc (KIf CPe (KGoto (LEofN 14) KNil) KNil KNil)));
  (* machine.go:1111 stCase14 *) ((LCase 14), (KIf (CAnd (CByte OGe 48) (CByte OLe 53)) (KGoto (LSt 15) KNil) KNil (KGoto (LTr 7) KNil)));
  (* machine.go:1116 st15 *) ((LSt 15), (KInc (KIf CPe (KGoto (LEofN 15) KNil) KNil KNil)));
  (* machine.go:1120 stCase15 *) ((LCase 15), (KIf (CAnd (CByte OGe 48) (CByte OLe 57)) (KGoto (LSt 16) KNil) KNil (KGoto (LTr 7) KNil)));
  (* machine.go:1125 st16 *) ((LSt 16), (KInc (KIf CPe (KGoto (LEofN 16) KNil) KNil KNil)));
  (* machine.go:1129 stCase16 *) ((LCase 16), (KIf (CByte OEq 58) (KGoto (LSt 17) KNil) KNil (KGoto (LTr 7) KNil)));
  (* machine.go:1134 st17 *) ((LSt 17), (KInc (KIf CPe (KGoto (LEofN 17) KNil) KNil KNil)));
  (* machine.go:1138 stCase17 *) ((LCase 17), (KIf (CAnd (CByte OGe 48) (CByte OLe 53)) (KGoto (LSt 18) KNil) KNil (KGoto (LTr 7) KNil)));
  (* machine.go:1143 st18 *) ((LSt 18), (KInc (KIf CPe (KGoto (LEofN 18) KNil) KNil KNil)));
  (* machine.go:1147 stCase18 *) ((LCase 18), (KIf (CAnd (CByte OGe 48) (CByte OLe 57)) (KGoto (LSt 19) KNil) KNil (KGoto (LTr 7) KNil)));
  (* machine.go:1152 st19 *) ((LSt 19), (KInc (KIf CPe (KGoto (LEofN 19) KNil) KNil KNil)));
  (* machine.go:1156 stCase19 *) ((LCase 19), (KIf (CByte OEq 32) (KGoto (LTr 35) KNil) KNil (KGoto (LSt 0) KNil)));
  (* machine.go:1161 tr35 *) ((LTr 35), (KAct ATimeStamp (KIf (CExt CTimeErr) (KAct AErrTime (KDec (KBlk (KGoto (LSt 373) KNil) KNil))) (KIf (CExt CTimezone) (KAct ATimeInLoc KNil) KNil (KAct ATimestampYear (KIf (CExt CLoc) (KAct ATimestampIn KNil) KNil (KAct ATimestampSet KNil)))) (KGoto (LSt 20) KNil))));
  (* machine.go:1182 tr341 *) ((LTr 341), (KAct ATimeRfc3339 (KIf (CExt CTimeErr) (KAct AErrTime (KDec (KBlk (KGoto (LSt 373) KNil) KNil))) (KAct ATimestamp (KAct ATimestampSet KNil)) (KGoto (LSt 20) KNil))));
  (* machine.go:1197 st20 *) ((LSt 20), (KInc (KIf CPe (KGoto (LEofN 20) KNil) KNil KNil)));
  (* machine.go:1201 stCase20 *) ((LCase 20), (KIf (CAnd (CByte OGe 33) (CByte OLe 126)) (KGoto (LTr 38) KNil) KNil (KGoto (LTr 37) KNil)));
  (* machine.go:1206 tr38 *) ((LTr 38), (KAct APb (KGoto (LSt 21) KNil)));
  (* machine.go:1211 st21 *) ((LSt 21), (KInc (KIf CPe (KGoto (LEofN 21) KNil) KNil KNil)));
  (* machine.go:1215 stCase21 *) ((LCase 21), (KIf (CByte OEq 32) (KGoto (LTr 39) KNil) KNil (KIf (CAnd (CByte OGe 33) (CByte OLe 126)) (KGoto (LSt 27) KNil) KNil (KGoto (LTr 37) KNil))));
  (* machine.go:1223 tr39 *) ((LTr 39), (KAct AHostname (KGoto (LSt 22) KNil)));
  (* machine.go:1228 st22 *) ((LSt 22), (KInc (KIf CPe (KGoto (LEofN 22) KNil) KNil KNil)));
  (* machine.go:1232 stCase22 *) ((LCase 22), (KIf (CByte OEq 127) (KGoto (LTr 41) KNil) KNil (KBlk (KIf (CByte OLt 33) (KIf (CByte OLe 31) (KGoto (LTr 41) KNil) KNil KNil) (KIf (CByte OGt 57) (KBlk (KIf (CByte OGt 90) (KIf (CAnd (CByte OGe 92) (CByte OLe 126)) (KGoto (LTr 43) KNil) KNil KNil) (KIf (CByte OGe 59) (KGoto (LTr 43) KNil) KNil KNil) KNil) KNil) (KGoto (LTr 43) KNil) KNil) KNil) (KGoto (LTr 42) KNil))));
  (* machine.go:1254 tr42 *) ((LTr 42), (KAct APb (KGoto (LSt 333) KNil)));
  (* machine.go:1259 st333 *) ((LSt 333), (KInc (KIf CPe (KGoto (LEofN 333) KNil) KNil KNil)))
].

(* /repo/rfc3164/machine.go *)
Definition prog3164_1 : list (label * code act cnd) := [
  (* machine.go:1263 stCase333 *) ((LCase 333), (KIf (CByte OEq 127) (KGoto (LSt 0) KNil) KNil (KIf (CByte OLe 31) (KGoto (LSt 0) KNil) KNil (KGoto (LSt 333) KNil))));
  (* machine.go:1271 tr43 *) ((LTr 43), (KAct APb (KGoto (LSt 334) KNil)));
  (* machine.go:1276 st334 *) ((LSt 334), (KInc (KIf CPe (KGoto (LEofN 334) KNil) KNil KNil)));
  (* machine.go:1280 stCase334 *) ((LCase 334), (KBlk (KIf (CByte OEq 58) (KGoto (LTr 347) KNil) (KIf (CByte OEq 91) (KGoto (LTr 348) KNil) (KIf (CByte OEq 127) (KGoto (LSt 0) KNil) KNil KNil) KNil) KNil) (KBlk (KIf (CByte OGt 31) (KIf (CAnd (CByte OGe 33) (CByte OLe 126)) (KGoto (LSt 335) KNil) KNil KNil) (KGoto (LSt 0) KNil) KNil) (KGoto (LSt 333) KNil))));
  (* machine.go:1298 st335 *) ((LSt 335), (KInc (KIf CPe (KGoto (LEofN 335) KNil) KNil KNil)));
  (* machine.go:1302 stCase335 *) ((LCase 335), (KBlk (KIf (CByte OEq 58) (KGoto (LTr 347) KNil) (KIf (CByte OEq 91) (KGoto (LTr 348) KNil) (KIf (CByte OEq 127) (KGoto (LSt 0) KNil) KNil KNil) KNil) KNil) (KBlk (KIf (CByte OGt 31) (KIf (CAnd (CByte OGe 33) (CByte OLe 126)) (KGoto (LSt 336) KNil) KNil KNil) (KGoto (LSt 0) KNil) KNil) (KGoto (LSt 333) KNil))));
  (* machine.go:1320 st336 *) ((LSt 336), (KInc (KIf CPe (KGoto (LEofN 336) KNil) KNil KNil)));
  (* machine.go:1324 stCase336 *) ((LCase 336), (KBlk (KIf (CByte OEq 58) (KGoto (LTr 347) KNil) (KIf (CByte OEq 91) (KGoto (LTr 348) KNil) (KIf (CByte OEq 127) (KGoto (LSt 0) KNil) KNil KNil) KNil) KNil) (KBlk (KIf (CByte OGt 31) (KIf (CAnd (CByte OGe 33) (CByte OLe 126)) (KGoto (LSt 337) KNil) KNil KNil) (KGoto (LSt 0) KNil) KNil) (KGoto (LSt 333) KNil))));
  (* machine.go:1342 st337 *) ((LSt 337), (KInc (KIf CPe (KGoto (LEofN 337) KNil) KNil KNil)));
  (* machine.go:1346 stCase337 *) ((LCase 337), (KBlk (KIf (CByte OEq 58) (KGoto (LTr 347) KNil) (KIf (CByte OEq 91) (KGoto (LTr 348) KNil) (KIf (CByte OEq 127) (KGoto (LSt 0) KNil) KNil KNil) KNil) KNil) (KBlk (KIf (CByte OGt 31) (KIf (CAnd (CByte OGe 33) (CByte OLe 126)) (KGoto (LSt 338) KNil) KNil KNil) (KGoto (LSt 0) KNil) KNil) (KGoto (LSt 333) KNil))));
  (* machine.go:1364 st338 *) ((LSt 338), (KInc (KIf CPe (KGoto (LEofN 338) KNil) KNil KNil)));
  (* machine.go:1368 stCase338 *) ((LCase 338), (KBlk (KIf (CByte OEq 58) (KGoto (LTr 347) KNil) (KIf (CByte OEq 91) (KGoto (LTr 348) KNil) (KIf (CByte OEq 127) (KGoto (LSt 0) KNil) KNil KNil) KNil) KNil) (KBlk (KIf (CByte OGt 31) (KIf (CAnd (CByte OGe 33) (CByte OLe 126)) (KGoto (LSt 339) KNil) KNil KNil) (KGoto (LSt 0) KNil) KNil) (KGoto (LSt 333) KNil))));
  (* machine.go:1386 st339 *) ((LSt 339), (KInc (KIf CPe (KGoto (LEofN 339) KNil) KNil KNil)));
  (* machine.go:1390 stCase339 *) ((LCase 339), (KBlk (KIf (CByte OEq 58) (KGoto (LTr 347) KNil) (KIf (CByte OEq 91) (KGoto (LTr 348) KNil) (KIf (CByte OEq 127) (KGoto (LSt 0) KNil) KNil KNil) KNil) KNil) (KBlk (KIf (CByte OGt 31) (KIf (CAnd (CByte OGe 33) (CByte OLe 126)) (KGoto (LSt 340) KNil) KNil KNil) (KGoto (LSt 0) KNil) KNil) (KGoto (LSt 333) KNil))));
  (* machine.go:1408 st340 *) ((LSt 340), (KInc (KIf CPe (KGoto (LEofN 340) KNil) KNil KNil)));
  (* machine.go:1412 stCase340 *) ((LCase 340), (KBlk (KIf (CByte OEq 58) (KGoto (LTr 347) KNil) (KIf (CByte OEq 91) (KGoto (LTr 348) KNil) (KIf (CByte OEq 127) (KGoto (LSt 0) KNil) KNil KNil) KNil) KNil) (KBlk (KIf (CByte OGt 31) (KIf (CAnd (CByte OGe 33) (CByte OLe 126)) (KGoto (LSt 341) KNil) KNil KNil) (KGoto (LSt 0) KNil) KNil) (KGoto (LSt 333) KNil))));
  (* machine.go:1430 st341 *) ((LSt 341), (KInc (KIf CPe (KGoto (LEofN 341) KNil) KNil KNil)));
  (* machine.go:1434 stCase341 *) ((LCase 341), (KBlk (KIf (CByte OEq 58) (KGoto (LTr 347) KNil) (KIf (CByte OEq 91) (KGoto (LTr 348) KNil) (KIf (CByte OEq 127) (KGoto (LSt 0) KNil) KNil KNil) KNil) KNil) (KBlk (KIf (CByte OGt 31) (KIf (CAnd (CByte OGe 33) (CByte OLe 126)) (KGoto (LSt 342) KNil) KNil KNil) (KGoto (LSt 0) KNil) KNil) (KGoto (LSt 333) KNil))));
  (* machine.go:1452 st342 *) ((LSt 342), (KInc (KIf CPe (KGoto (LEofN 342) KNil) KNil KNil)));
  (* machine.go:1456 stCase342 *) ((LCase 342), (KBlk (KIf (CByte OEq 58) (KGoto (LTr 347) KNil) (KIf (CByte OEq 91) (KGoto (LTr 348) KNil) (KIf (CByte OEq 127) (KGoto (LSt 0) KNil) KNil KNil) KNil) KNil) (KBlk (KIf (CByte OGt 31) (KIf (CAnd (CByte OGe 33) (CByte OLe 126)) (KGoto (LSt 343) KNil) KNil KNil) (KGoto (LSt 0) KNil) KNil) (KGoto (LSt 333) KNil))));
  (* machine.go:1474 st343 *) ((LSt 343), (KInc (KIf CPe (KGoto (LEofN 343) KNil) KNil KNil)));
  (* machine.go:1478 stCase343 *) ((LCase 343), (KBlk (KIf (CByte OEq 58) (KGoto (LTr 347) KNil) (KIf (CByte OEq 91) (KGoto (LTr 348) KNil) (KIf (CByte OEq 127) (KGoto (LSt 0) KNil) KNil KNil) KNil) KNil) (KBlk (KIf (CByte OGt 31) (KIf (CAnd (CByte OGe 33) (CByte OLe 126)) (KGoto (LSt 344) KNil) KNil KNil) (KGoto (LSt 0) KNil) KNil) (KGoto (LSt 333) KNil))));
  (* machine.go:1496 st344 *) ((LSt 344), (KInc (KIf CPe (KGoto (LEofN 344) KNil) KNil KNil)));
  (* machine.go:1500 stCase344 *) ((LCase 344), (KBlk (KIf (CByte OEq 58) (KGoto (LTr 347) KNil) (KIf (CByte OEq 91) (KGoto (LTr 348) KNil) (KIf (CByte OEq 127) (KGoto (LSt 0) KNil) KNil KNil) KNil) KNil) (KBlk (KIf (CByte OGt 31) (KIf (CAnd (CByte OGe 33) (CByte OLe 126)) (KGoto (LSt 345) KNil) KNil KNil) (KGoto (LSt 0) KNil) KNil) (KGoto (LSt 333) KNil))));
  (* machine.go:1518 st345 *) ((LSt 345), (KInc (KIf CPe (KGoto (LEofN 345) KNil) KNil KNil)));
  (* machine.go:1522 stCase345 *) ((LCase 345), (KBlk (KIf (CByte OEq 58) (KGoto (LTr 347) KNil) (KIf (CByte OEq 91) (KGoto (LTr 348) KNil) (KIf (CByte OEq 127) (KGoto (LSt 0) KNil) KNil KNil) KNil) KNil) (KBlk (KIf (CByte OGt 31) (KIf (CAnd (CByte OGe 33) (CByte OLe 126)) (KGoto (LSt 346) KNil) KNil KNil) (KGoto (LSt 0) KNil) KNil) (KGoto (LSt 333) KNil))));
  (* machine.go:1540 st346 *) ((LSt 346), (KInc (KIf CPe (KGoto (LEofN 346) KNil) KNil KNil)));
  (* machine.go:1544 stCase346 *) ((LCase 346), (KBlk (KIf (CByte OEq 58) (KGoto (LTr 347) KNil) (KIf (CByte OEq 91) (KGoto (LTr 348) KNil) (KIf (CByte OEq 127) (KGoto (LSt 0) KNil) KNil KNil) KNil) KNil) (KBlk (KIf (CByte OGt 31) (KIf (CAnd (CByte OGe 33) (CByte OLe 126)) (KGoto (LSt 347) KNil) KNil KNil) (KGoto (LSt 0) KNil) KNil) (KGoto (LSt 333) KNil))));
  (* machine.go:1562 st347 *) ((LSt 347), (KInc (KIf CPe (KGoto (LEofN 347) KNil) KNil KNil)));
  (* machine.go:1566 stCase347 *) ((LCase 347), (KBlk (KIf (CByte OEq 58) (KGoto (LTr 347) KNil) (KIf (CByte OEq 91) (KGoto (LTr 348) KNil) (KIf (CByte OEq 127) (KGoto (LSt 0) KNil) KNil KNil) KNil) KNil) (KBlk (KIf (CByte OGt 31) (KIf (CAnd (CByte OGe 33) (CByte OLe 126)) (KGoto (LSt 348) KNil) KNil KNil) (KGoto (LSt 0) KNil) KNil) (KGoto (LSt 333) KNil))));
  (* machine.go:1584 st348 *) ((LSt 348), (KInc (KIf CPe (KGoto (LEofN 348) KNil) KNil KNil)));
  (* machine.go:1588 stCase348 *) ((LCase 348), (KBlk (KIf (CByte OEq 58) (KGoto (LTr 347) KNil) (KIf (CByte OEq 91) (KGoto (LTr 348) KNil) (KIf (CByte OEq 127) (KGoto (LSt 0) KNil) KNil KNil) KNil) KNil) (KBlk (KIf (CByte OGt 31) (KIf (CAnd (CByte OGe 33) (CByte OLe 126)) (KGoto (LSt 349) KNil) KNil KNil) (KGoto (LSt 0) KNil) KNil) (KGoto (LSt 333) KNil))));
  (* machine.go:1606 st349 *) ((LSt 349), (KInc (KIf CPe (KGoto (LEofN 349) KNil) KNil KNil)));
  (* machine.go:1610 stCase349 *) ((LCase 349), (KBlk (KIf (CByte OEq 58) (KGoto (LTr 347) KNil) (KIf (CByte OEq 91) (KGoto (LTr 348) KNil) (KIf (CByte OEq 127) (KGoto (LSt 0) KNil) KNil KNil) KNil) KNil) (KBlk (KIf (CByte OGt 31) (KIf (CAnd (CByte OGe 33) (CByte OLe 126)) (KGoto (LSt 350) KNil) KNil KNil) (KGoto (LSt 0) KNil) KNil) (KGoto (LSt 333) KNil))));
  (* machine.go:1628 st350 *) ((LSt 350), (KInc (KIf CPe (KGoto (LEofN 350) KNil) KNil KNil)));
  (* machine.go:1632 stCase350 *) ((LCase 350), (KBlk (KIf (CByte OEq 58) (KGoto (LTr 347) KNil) (KIf (CByte OEq 91) (KGoto (LTr 348) KNil) (KIf (CByte OEq 127) (KGoto (LSt 0) KNil) KNil KNil) KNil) KNil) (KBlk (KIf (CByte OGt 31) (KIf (CAnd (CByte OGe 33) (CByte OLe 126)) (KGoto (LSt 351) KNil) KNil KNil) (KGoto (LSt 0) KNil) KNil) (KGoto (LSt 333) KNil))));
  (* machine.go:1650 st351 *) ((LSt 351), (KInc (KIf CPe (KGoto (LEofN 351) KNil) KNil KNil)));
  (* machine.go:1654 stCase351 *) ((LCase 351), (KBlk (KIf (CByte OEq 58) (KGoto (LTr 347) KNil) (KIf (CByte OEq 91) (KGoto (LTr 348) KNil) (KIf (CByte OEq 127) (KGoto (LSt 0) KNil) KNil KNil) KNil) KNil) (KBlk (KIf (CByte OGt 31) (KIf (CAnd (CByte OGe 33) (CByte OLe 126)) (KGoto (LSt 352) KNil) KNil KNil) (KGoto (LSt 0) KNil) KNil) (KGoto (LSt 333) KNil))));
  (* machine.go:1672 st352 *) ((LSt 352), (KInc (KIf CPe (KGoto (LEofN 352) KNil) KNil KNil)));
  (* machine.go:1676 stCase352 *) ((LCase 352), (KBlk (KIf (CByte OEq 58) (KGoto (LTr 347) KNil) (KIf (CByte OEq 91) (KGoto (LTr 348) KNil) (KIf (CByte OEq 127) (KGoto (LSt 0) KNil) KNil KNil) KNil) KNil) (KBlk (KIf (CByte OGt 31) (KIf (CAnd (CByte OGe 33) (CByte OLe 126)) (KGoto (LSt 353) KNil) KNil KNil) (KGoto (LSt 0) KNil) KNil) (KGoto (LSt 333) KNil))));
  (* machine.go:1694 st353 *) ((LSt 353), (KInc (KIf CPe (KGoto (LEofN 353) KNil) KNil KNil)));
  (* machine.go:1698 stCase353 *) ((LCase 353), (KBlk (KIf (CByte OEq 58) (KGoto (LTr 347) KNil) (KIf (CByte OEq 91) (KGoto (LTr 348) KNil) (KIf (CByte OEq 127) (KGoto (LSt 0) KNil) KNil KNil) KNil) KNil) (KBlk (KIf (CByte OGt 31) (KIf (CAnd (CByte OGe 33) (CByte OLe 126)) (KGoto (LSt 354) KNil) KNil KNil) (KGoto (LSt 0) KNil) KNil) (KGoto (LSt 333) KNil))));
  (* machine.go:1716 st354 *) ((LSt 354), (KInc (KIf CPe (KGoto (LEofN 354) KNil) KNil KNil)));
  (* machine.go:1720 stCase354 *) ((LCase 354), (KBlk (KIf (CByte OEq 58) (KGoto (LTr 347) KNil) (KIf (CByte OEq 91) (KGoto (LTr 348) KNil) (KIf (CByte OEq 127) (KGoto (LSt 0) KNil) KNil KNil) KNil) KNil) (KBlk (KIf (CByte OGt 31) (KIf (CAnd (CByte OGe 33) (CByte OLe 126)) (KGoto (LSt 355) KNil) KNil KNil) (KGoto (LSt 0) KNil) KNil) (KGoto (LSt 333) KNil))));
  (* machine.go:1738 st355 *) ((LSt 355), (KInc (KIf CPe (KGoto (LEofN 355) KNil) KNil KNil)));
  (* machine.go:1742 stCase355 *) ((LCase 355), (KBlk (KIf (CByte OEq 58) (KGoto (LTr 347) KNil) (KIf (CByte OEq 91) (KGoto (LTr 348) KNil) (KIf (CByte OEq 127) (KGoto (LSt 0) KNil) KNil KNil) KNil) KNil) (KBlk (KIf (CByte OGt 31) (KIf (CAnd (CByte OGe 33) (CByte OLe 126)) (KGoto (LSt 356) KNil) KNil KNil) (KGoto (LSt 0) KNil) KNil) (KGoto (LSt 333) KNil))));
  (* machine.go:1760 st356 *) ((LSt 356), (KInc (KIf CPe (KGoto (LEofN 356) KNil) KNil KNil)));
  (* machine.go:1764 stCase356 *) ((LCase 356), (KBlk (KIf (CByte OEq 58) (KGoto (LTr 347) KNil) (KIf (CByte OEq 91) (KGoto (LTr 348) KNil) (KIf (CByte OEq 127) (KGoto (LSt 0) KNil) KNil KNil) KNil) KNil) (KBlk (KIf (CByte OGt 31) (KIf (CAnd (CByte OGe 33) (CByte OLe 126)) (KGoto (LSt 357) KNil) KNil KNil) (KGoto (LSt 0) KNil) KNil) (KGoto (LSt 333) KNil))));
  (* machine.go:1782 st357 *) ((LSt 357), (KInc (KIf CPe (KGoto (LEofN 357) KNil) KNil KNil)));
  (* machine.go:1786 stCase357 *) ((LCase 357), (KBlk (KIf (CByte OEq 58) (KGoto (LTr 347) KNil) (KIf (CByte OEq 91) (KGoto (LTr 348) KNil) (KIf (CByte OEq 127) (KGoto (LSt 0) KNil) KNil KNil) KNil) KNil) (KBlk (KIf (CByte OGt 31) (KIf (CAnd (CByte OGe 33) (CByte OLe 126)) (KGoto (LSt 358) KNil) KNil KNil) (KGoto (LSt 0) KNil) KNil) (KGoto (LSt 333) KNil))));
  (* machine.go:1804 st358 *) ((LSt 358), (KInc (KIf CPe (KGoto (LEofN 358) KNil) KNil KNil)));
  (* machine.go:1808 stCase358 *) ((LCase 358), (KBlk (KIf (CByte OEq 58) (KGoto (LTr 347) KNil) (KIf (CByte OEq 91) (KGoto (LTr 348) KNil) (KIf (CByte OEq 127) (KGoto (LSt 0) KNil) KNil KNil) KNil) KNil) (KBlk (KIf (CByte OGt 31) (KIf (CAnd (CByte OGe 33) (CByte OLe 126)) (KGoto (LSt 359) KNil) KNil KNil) (KGoto (LSt 0) KNil) KNil) (KGoto (LSt 333) KNil))));
  (* machine.go:1826 st359 *) ((LSt 359), (KInc (KIf CPe (KGoto (LEofN 359) KNil) KNil KNil)));
  (* machine.go:1830 stCase359 *) ((LCase 359), (KBlk (KIf (CByte OEq 58) (KGoto (LTr 347) KNil) (KIf (CByte OEq 91) (KGoto (LTr 348) KNil) (KIf (CByte OEq 127) (KGoto (LSt 0) KNil) KNil KNil) KNil) KNil) (KBlk (KIf (CByte OGt 31) (KIf (CAnd (CByte OGe 33) (CByte OLe 126)) (KGoto (LSt 360) KNil) KNil KNil) (KGoto (LSt 0) KNil) KNil) (KGoto (LSt 333) KNil))));
  (* machine.go:1848 st360 *) ((LSt 360), (KInc (KIf CPe (KGoto (LEofN 360) KNil) KNil KNil)));
  (* machine.go:1852 stCase360 *) ((LCase 360), (KBlk (KIf (CByte OEq 58) (KGoto (LTr 347) KNil) (KIf (CByte OEq 91) (KGoto (LTr 348) KNil) (KIf (CByte OEq 127) (KGoto (LSt 0) KNil) KNil KNil) KNil) KNil) (KBlk (KIf (CByte OGt 31) (KIf (CAnd (CByte OGe 33) (CByte OLe 126)) (KGoto (LSt 361) KNil) KNil KNil) (KGoto (LSt 0) KNil) KNil) (KGoto (LSt 333) KNil))));
  (* machine.go:1870 st361 *) ((LSt 361), (KInc (KIf CPe (KGoto (LEofN 361) KNil) KNil KNil)));
  (* machine.go:1874 stCase361 *) ((LCase 361), (KBlk (KIf (CByte OEq 58) (KGoto (LTr 347) KNil) (KIf (CByte OEq 91) (KGoto (LTr 348) KNil) (KIf (CByte OEq 127) (KGoto (LSt 0) KNil) KNil KNil) KNil) KNil) (KBlk (KIf (CByte OGt 31) (KIf (CAnd (CByte OGe 33) (CByte OLe 126)) (KGoto (LSt 362) KNil) KNil KNil) (KGoto (LSt 0) KNil) KNil) (KGoto (LSt 333) KNil))));
  (* machine.go:1892 st362 *) ((LSt 362), (KInc (KIf CPe (KGoto (LEofN 362) KNil) KNil KNil)));
  (* machine.go:1896 stCase362 *) ((LCase 362), (KBlk (KIf (CByte OEq 58) (KGoto (LTr 347) KNil) (KIf (CByte OEq 91) (KGoto (LTr 348) KNil) (KIf (CByte OEq 127) (KGoto (LSt 0) KNil) KNil KNil) KNil) KNil) (KBlk (KIf (CByte OGt 31) (KIf (CAnd (CByte OGe 33) (CByte OLe 126)) (KGoto (LSt 363) KNil) KNil KNil) (KGoto (LSt 0) KNil) KNil) (KGoto (LSt 333) KNil))))
].

(* /repo/rfc3164/machine.go *)
Definition prog3164_2 : list (label * code act cnd) := [
  (* machine.go:1914 st363 *) ((LSt 363), (KInc (KIf CPe (KGoto (LEofN 363) KNil) KNil KNil)));
  (* machine.go:1918 stCase363 *) ((LCase 363), (KBlk (KIf (CByte OEq 58) (KGoto (LTr 347) KNil) (KIf (CByte OEq 91) (KGoto (LTr 348) KNil) (KIf (CByte OEq 127) (KGoto (LSt 0) KNil) KNil KNil) KNil) KNil) (KBlk (KIf (CByte OGt 31) (KIf (CAnd (CByte OGe 33) (CByte OLe 126)) (KGoto (LSt 364) KNil) KNil KNil) (KGoto (LSt 0) KNil) KNil) (KGoto (LSt 333) KNil))));
  (* machine.go:1936 st364 *) ((LSt 364), (KInc (KIf CPe (KGoto (LEofN 364) KNil) KNil KNil)));
  (* machine.go:1940 stCase364 *) ((LCase 364), (KBlk (KIf (CByte OEq 58) (KGoto (LTr 347) KNil) (KIf (CByte OEq 91) (KGoto (LTr 348) KNil) (KIf (CByte OEq 127) (KGoto (LSt 0) KNil) KNil KNil) KNil) KNil) (KBlk (KIf (CByte OGt 31) (KIf (CAnd (CByte OGe 33) (CByte OLe 126)) (KGoto (LSt 365) KNil) KNil KNil) (KGoto (LSt 0) KNil) KNil) (KGoto (LSt 333) KNil))));
  (* machine.go:1958 st365 *) ((LSt 365), (KInc (KIf CPe (KGoto (LEofN 365) KNil) KNil KNil)));
  (* machine.go:1962 stCase365 *) ((LCase 365), (KBlk (KIf (CByte OEq 58) (KGoto (LTr 347) KNil) (KIf (CByte OEq 91) (KGoto (LTr 348) KNil) (KIf (CByte OEq 127) (KGoto (LSt 0) KNil) KNil KNil) KNil) KNil) (KIf (CByte OLe 31) (KGoto (LSt 0) KNil) KNil (KGoto (LSt 333) KNil))));
  (* machine.go:1975 tr347 *) ((LTr 347), (KAct ATag (KGoto (LSt 366) KNil)));
  (* machine.go:1980 st366 *) ((LSt 366), (KInc (KIf CPe (KGoto (LEofN 366) KNil) KNil KNil)));
  (* machine.go:1984 stCase366 *) ((LCase 366), (KBlk (KIf (CByte OEq 32) (KGoto (LSt 367) KNil) (KIf (CByte OEq 127) (KGoto (LSt 0) KNil) KNil KNil) KNil) (KIf (CByte OLe 31) (KGoto (LSt 0) KNil) KNil (KGoto (LSt 333) KNil))));
  (* machine.go:1995 st367 *) ((LSt 367), (KInc (KIf CPe (KGoto (LEofN 367) KNil) KNil KNil)));
  (* machine.go:1999 stCase367 *) ((LCase 367), (KIf (CByte OEq 127) (KGoto (LSt 0) KNil) KNil (KIf (CByte OLe 31) (KGoto (LSt 0) KNil) KNil (KGoto (LTr 42) KNil))));
  (* machine.go:2007 tr348 *) ((LTr 348), (KAct ATag (KGoto (LSt 368) KNil)));
  (* machine.go:2012 st368 *) ((LSt 368), (KInc (KIf CPe (KGoto (LEofN 368) KNil) KNil KNil)));
  (* machine.go:2016 stCase368 *) ((LCase 368), (KBlk (KIf (CByte OEq 93) (KGoto (LTr 381) KNil) (KIf (CByte OEq 127) (KGoto (LTr 380) KNil) KNil KNil) KNil) (KIf (CByte OLe 31) (KGoto (LTr 380) KNil) KNil (KGoto (LTr 48) KNil))));
  (* machine.go:2027 tr380 *) ((LTr 380), (KAct APb (KGoto (LSt 23) KNil)));
  (* machine.go:2032 st23 *) ((LSt 23), (KInc (KIf CPe (KGoto (LEofN 23) KNil) KNil KNil)));
  (* machine.go:2036 stCase23 *) ((LCase 23), (KIf (CByte OEq 93) (KGoto (LTr 45) KNil) KNil (KGoto (LSt 23) KNil)));
  (* machine.go:2041 tr45 *) ((LTr 45), (KAct AContent (KGoto (LSt 24) KNil)));
  (* machine.go:2046 st24 *) ((LSt 24), (KInc (KIf CPe (KGoto (LEofN 24) KNil) KNil KNil)));
  (* machine.go:2050 stCase24 *) ((LCase 24), (KBlk (KIf (CByte OEq 58) (KGoto (LSt 25) KNil) (KIf (CByte OEq 93) (KGoto (LTr 45) KNil) KNil KNil) KNil) (KGoto (LSt 23) KNil)));
  (* machine.go:2058 st25 *) ((LSt 25), (KInc (KIf CPe (KGoto (LEofN 25) KNil) KNil KNil)));
  (* machine.go:2062 stCase25 *) ((LCase 25), (KBlk (KIf (CByte OEq 32) (KGoto (LSt 26) KNil) (KIf (CByte OEq 93) (KGoto (LTr 45) KNil) KNil KNil) KNil) (KGoto (LSt 23) KNil)));
  (* machine.go:2070 st26 *) ((LSt 26), (KInc (KIf CPe (KGoto (LEofN 26) KNil) KNil KNil)));
  (* machine.go:2074 stCase26 *) ((LCase 26), (KBlk (KIf (CByte OEq 93) (KGoto (LTr 49) KNil) (KIf (CByte OEq 127) (KGoto (LSt 23) KNil) KNil KNil) KNil) (KIf (CByte OLe 31) (KGoto (LSt 23) KNil) KNil (KGoto (LTr 48) KNil))));
  (* machine.go:2085 tr48 *) ((LTr 48), (KAct APb (KGoto (LSt 369) KNil)));
  (* machine.go:2090 st369 *) ((LSt 369), (KInc (KIf CPe (KGoto (LEofN 369) KNil) KNil KNil)));
  (* machine.go:2094 stCase369 *) ((LCase 369), (KBlk (KIf (CByte OEq 93) (KGoto (LTr 383) KNil) (KIf (CByte OEq 127) (KGoto (LSt 23) KNil) KNil KNil) KNil) (KIf (CByte OLe 31) (KGoto (LSt 23) KNil) KNil (KGoto (LSt 369) KNil))));
  (* machine.go:2105 tr383 *) ((LTr 383), (KAct AContent (KGoto (LSt 370) KNil)));
  (* machine.go:2110 tr49 *) ((LTr 49), (KAct AContent (KAct APb (KGoto (LSt 370) KNil))));
  (* machine.go:2117 tr381 *) ((LTr 381), (KAct APb (KAct AContent (KGoto (LSt 370) KNil))));
  (* machine.go:2124 st370 *) ((LSt 370), (KInc (KIf CPe (KGoto (LEofN 370) KNil) KNil KNil)));
  (* machine.go:2128 stCase370 *) ((LCase 370), (KBlk (KIf (CByte OEq 58) (KGoto (LSt 371) KNil) (KIf (CByte OEq 93) (KGoto (LTr 383) KNil) (KIf (CByte OEq 127) (KGoto (LSt 23) KNil) KNil KNil) KNil) KNil) (KIf (CByte OLe 31) (KGoto (LSt 23) KNil) KNil (KGoto (LSt 369) KNil))));
  (* machine.go:2141 st371 *) ((LSt 371), (KInc (KIf CPe (KGoto (LEofN 371) KNil) KNil KNil)));
  (* machine.go:2145 stCase371 *) ((LCase 371), (KBlk (KIf (CByte OEq 32) (KGoto (LSt 372) KNil) (KIf (CByte OEq 93) (KGoto (LTr 383) KNil) (KIf (CByte OEq 127) (KGoto (LSt 23) KNil) KNil KNil) KNil) KNil) (KIf (CByte OLe 31) (KGoto (LSt 23) KNil) KNil (KGoto (LSt 369) KNil))));
  (* machine.go:2158 st372 *) ((LSt 372), (KInc (KIf CPe (KGoto (LEofN 372) KNil) KNil KNil)));
  (* machine.go:2162 stCase372 *) ((LCase 372), (KBlk (KIf (CByte OEq 93) (KGoto (LTr 49) KNil) (KIf (CByte OEq 127) (KGoto (LSt 23) KNil) KNil KNil) KNil) (KIf (CByte OLe 31) (KGoto (LSt 23) KNil) KNil (KGoto (LTr 48) KNil))));
  (* machine.go:2173 st27 *) ((LSt 27), (KInc (KIf CPe (KGoto (LEofN 27) KNil) KNil KNil)));
  (* machine.go:2177 stCase27 *) ((LCase 27), (KIf (CByte OEq 32) (KGoto (LTr 39) KNil) KNil (KIf (CAnd (CByte OGe 33) (CByte OLe 126)) (KGoto (LSt 28) KNil) KNil (KGoto (LTr 37) KNil))));
  (* machine.go:2185 st28 *) ((LSt 28), (KInc (KIf CPe (KGoto (LEofN 28) KNil) KNil KNil)));
  (* machine.go:2189 stCase28 *) ((LCase 28), (KIf (CByte OEq 32) (KGoto (LTr 39) KNil) KNil (KIf (CAnd (CByte OGe 33) (CByte OLe 126)) (KGoto (LSt 29) KNil) KNil (KGoto (LTr 37) KNil))));
  (* machine.go:2197 st29 *) ((LSt 29), (KInc (KIf CPe (KGoto (LEofN 29) KNil) KNil KNil)));
  (* machine.go:2201 stCase29 *) ((LCase 29), (KIf (CByte OEq 32) (KGoto (LTr 39) KNil) KNil (KIf (CAnd (CByte OGe 33) (CByte OLe 126)) (KGoto (LSt 30) KNil) KNil (KGoto (LTr 37) KNil))));
  (* machine.go:2209 st30 *) ((LSt 30), (KInc (KIf CPe (KGoto (LEofN 30) KNil) KNil KNil)));
  (* machine.go:2213 stCase30 *) ((LCase 30), (KIf (CByte OEq 32) (KGoto (LTr 39) KNil) KNil (KIf (CAnd (CByte OGe 33) (CByte OLe 126)) (KGoto (LSt 31) KNil) KNil (KGoto (LTr 37) KNil))));
  (* machine.go:2221 st31 *) ((LSt 31), (KInc (KIf CPe (KGoto (LEofN 31) KNil) KNil KNil)));
  (* machine.go:2225 stCase31 *) ((LCase 31), (KIf (CByte OEq 32) (KGoto (LTr 39) KNil) KNil (KIf (CAnd (CByte OGe 33) (CByte OLe 126)) (KGoto (LSt 32) KNil) KNil (KGoto (LTr 37) KNil))));
  (* machine.go:2233 st32 *) ((LSt 32), (KInc (KIf CPe (KGoto (LEofN 32) KNil) KNil KNil)));
  (* machine.go:2237 stCase32 *) ((LCase 32), (KIf (CByte OEq 32) (KGoto (LTr 39) KNil) KNil (KIf (CAnd (CByte OGe 33) (CByte OLe 126)) (KGoto (LSt 33) KNil) KNil (KGoto (LTr 37) KNil))));
  (* machine.go:2245 st33 *) ((LSt 33), (KInc (KIf CPe (KGoto (LEofN 33) KNil) KNil KNil)));
  (* machine.go:2249 stCase33 *) ((LCase 33), (KIf (CByte OEq 32) (KGoto (LTr 39) KNil) KNil (KIf (CAnd (CByte OGe 33) (CByte OLe 126)) (KGoto (LSt 34) KNil) KNil (KGoto (LTr 37) KNil))));
  (* machine.go:2257 st34 *) ((LSt 34), (KInc (KIf CPe (KGoto (LEofN 34) KNil) KNil KNil)));
  (* machine.go:2261 stCase34 *) ((LCase 34), (KIf (CByte OEq 32) (KGoto (LTr 39) KNil) KNil (KIf (CAnd (CByte OGe 33) (CByte OLe 126)) (KGoto (LSt 35) KNil) KNil (KGoto (LTr 37) KNil))));
  (* machine.go:2269 st35 *) ((LSt 35), (KInc (KIf CPe (KGoto (LEofN 35) KNil) KNil KNil)));
  (* machine.go:2273 stCase35 *) ((LCase 35), (KIf (CByte OEq 32) (KGoto (LTr 39) KNil) KNil (KIf (CAnd (CByte OGe 33) (CByte OLe 126)) (KGoto (LSt 36) KNil) KNil (KGoto (LTr 37) KNil))));
  (* machine.go:2281 st36 *) ((LSt 36), (KInc (KIf CPe (KGoto (LEofN 36) KNil) KNil KNil)));
  (* machine.go:2285 stCase36 *) ((LCase 36), (KIf (CByte OEq 32) (KGoto (LTr 39) KNil) KNil (KIf (CAnd (CByte OGe 33) (CByte OLe 126)) (KGoto (LSt 37) KNil) KNil (KGoto (LTr 37) KNil))));
  (* machine.go:2293 st37 *) ((LSt 37), (KInc (KIf CPe (KGoto (LEofN 37) KNil) KNil KNil)));
  (* machine.go:2297 stCase37 *) ((LCase 37), (KIf (CByte OEq 32) (KGoto (LTr 39) KNil) KNil (KIf (CAnd (CByte OGe 33) (CByte OLe 126)) (KGoto (LSt 38) KNil) KNil (KGoto (LTr 37) KNil))));
  (* machine.go:2305 st38 *) ((LSt 38), (KInc (KIf CPe (KGoto (LEofN 38) KNil) KNil KNil)));
  (* machine.go:2309 stCase38 *) ((LCase 38), (KIf (CByte OEq 32) (KGoto (LTr 39) KNil) KNil (KIf (CAnd (CByte OGe 33) (CByte OLe 126)) (KGoto (LSt 39) KNil) KNil (KGoto (LTr 37) KNil))))
].

(* /repo/rfc3164/machine.go *)
Definition prog3164_3 : list (label * code act cnd) := [
  (* machine.go:2317 st39 *) ((LSt 39), (KInc (KIf CPe (KGoto (LEofN 39) KNil) KNil KNil)));
  (* machine.go:2321 stCase39 *) ((LCase 39), (KIf (CByte OEq 32) (KGoto (LTr 39) KNil) KNil (KIf (CAnd (CByte OGe 33) (CByte OLe 126)) (KGoto (LSt 40) KNil) KNil (KGoto (LTr 37) KNil))));
  (* machine.go:2329 st40 *) ((LSt 40), (KInc (KIf CPe (KGoto (LEofN 40) KNil) KNil KNil)));
  (* machine.go:2333 stCase40 *) ((LCase 40), (KIf (CByte OEq 32) (KGoto (LTr 39) KNil) KNil (KIf (CAnd (CByte OGe 33) (CByte OLe 126)) (KGoto (LSt 41) KNil) KNil (KGoto (LTr 37) KNil))));
  (* machine.go:2341 st41 *) ((LSt 41), (KInc (KIf CPe (KGoto (LEofN 41) KNil) KNil KNil)));
  (* machine.go:2345 stCase41 *) ((LCase 41), (KIf (CByte OEq 32) (KGoto (LTr 39) KNil) KNil (KIf (CAnd (CByte OGe 33) (CByte OLe 126)) (KGoto (LSt 42) KNil) KNil (KGoto (LTr 37) KNil))));
  (* machine.go:2353 st42 *) ((LSt 42), (KInc (KIf CPe (KGoto (LEofN 42) KNil) KNil KNil)));
  (* machine.go:2357 stCase42 *) ((LCase 42), (KIf (CByte OEq 32) (KGoto (LTr 39) KNil) KNil (KIf (CAnd (CByte OGe 33) (CByte OLe 126)) (KGoto (LSt 43) KNil) KNil (KGoto (LTr 37) KNil))));
  (* machine.go:2365 st43 *) ((LSt 43), (KInc (KIf CPe (KGoto (LEofN 43) KNil) KNil KNil)));
  (* machine.go:2369 stCase43 *) ((LCase 43), (KIf (CByte OEq 32) (KGoto (LTr 39) KNil) KNil (KIf (CAnd (CByte OGe 33) (CByte OLe 126)) (KGoto (LSt 44) KNil) KNil (KGoto (LTr 37) KNil))));
  (* machine.go:2377 st44 *) ((LSt 44), (KInc (KIf CPe (KGoto (LEofN 44) KNil) KNil KNil)));
  (* machine.go:2381 stCase44 *) ((LCase 44), (KIf (CByte OEq 32) (KGoto (LTr 39) KNil) KNil (KIf (CAnd (CByte OGe 33) (CByte OLe 126)) (KGoto (LSt 45) KNil) KNil (KGoto (LTr 37) KNil))));
  (* machine.go:2389 st45 *) ((LSt 45), (KInc (KIf CPe (KGoto (LEofN 45) KNil) KNil KNil)));
  (* machine.go:2393 stCase45 *) ((LCase 45), (KIf (CByte OEq 32) (KGoto (LTr 39) KNil) KNil (KIf (CAnd (CByte OGe 33) (CByte OLe 126)) (KGoto (LSt 46) KNil) KNil (KGoto (LTr 37) KNil))));
  (* machine.go:2401 st46 *) ((LSt 46), (KInc (KIf CPe (KGoto (LEofN 46) KNil) KNil KNil)));
  (* machine.go:2405 stCase46 *) ((LCase 46), (KIf (CByte OEq 32) (KGoto (LTr 39) KNil) KNil (KIf (CAnd (CByte OGe 33) (CByte OLe 126)) (KGoto (LSt 47) KNil) KNil (KGoto (LTr 37) KNil))));
  (* machine.go:2413 st47 *) ((LSt 47), (KInc (KIf CPe (KGoto (LEofN 47) KNil) KNil KNil)));
  (* machine.go:2417 stCase47 *) ((LCase 47), (KIf (CByte OEq 32) (KGoto (LTr 39) KNil) KNil (KIf (CAnd (CByte OGe 33) (CByte OLe 126)) (KGoto (LSt 48) KNil) KNil (KGoto (LTr 37) KNil))));
  (* machine.go:2425 st48 *) ((LSt 48), (KInc (KIf CPe (KGoto (LEofN 48) KNil) KNil KNil)));
  (* machine.go:2429 stCase48 *) ((LCase 48), (KIf (CByte OEq 32) (KGoto (LTr 39) KNil) KNil (KIf (CAnd (CByte OGe 33) (CByte OLe 126)) (KGoto (LSt 49) KNil) KNil (KGoto (LTr 37) KNil))));
  (* machine.go:2437 st49 *) ((LSt 49), (KInc (KIf CPe (KGoto (LEofN 49) KNil) KNil KNil)));
  (* machine.go:2441 stCase49 *) ((LCase 49), (KIf (CByte OEq 32) (KGoto (LTr 39) KNil) KNil (KIf (CAnd (CByte OGe 33) (CByte OLe 126)) (KGoto (LSt 50) KNil) KNil (KGoto (LTr 37) KNil))));
  (* machine.go:2449 st50 *) ((LSt 50), (KInc (KIf CPe (KGoto (LEofN 50) KNil) KNil KNil)));
  (* machine.go:2453 stCase50 *) ((LCase 50), (KIf (CByte OEq 32) (KGoto (LTr 39) KNil) KNil (KIf (CAnd (CByte OGe 33) (CByte OLe 126)) (KGoto (LSt 51) KNil) KNil (KGoto (LTr 37) KNil))));
  (* machine.go:2461 st51 *) ((LSt 51), (KInc (KIf CPe (KGoto (LEofN 51) KNil) KNil KNil)));
  (* machine.go:2465 stCase51 *) ((LCase 51), (KIf (CByte OEq 32) (KGoto (LTr 39) KNil) KNil (KIf (CAnd (CByte OGe 33) (CByte OLe 126)) (KGoto (LSt 52) KNil) KNil (KGoto (LTr 37) KNil))));
  (* machine.go:2473 st52 *) ((LSt 52), (KInc (KIf CPe (KGoto (LEofN 52) KNil) KNil KNil)));
  (* machine.go:2477 stCase52 *) ((LCase 52), (KIf (CByte OEq 32) (KGoto (LTr 39) KNil) KNil (KIf (CAnd (CByte OGe 33) (CByte OLe 126)) (KGoto (LSt 53) KNil) KNil (KGoto (LTr 37) KNil))));
  (* machine.go:2485 st53 *) ((LSt 53), (KInc (KIf CPe (KGoto (LEofN 53) KNil) KNil KNil)));
  (* machine.go:2489 stCase53 *) ((LCase 53), (KIf (CByte OEq 32) (KGoto (LTr 39) KNil) KNil (KIf (CAnd (CByte OGe 33) (CByte OLe 126)) (KGoto (LSt 54) KNil) KNil (KGoto (LTr 37) KNil))));
  (* machine.go:2497 st54 *) ((LSt 54), (KInc (KIf CPe (KGoto (LEofN 54) KNil) KNil KNil)));
  (* machine.go:2501 stCase54 *) ((LCase 54), (KIf (CByte OEq 32) (KGoto (LTr 39) KNil) KNil (KIf (CAnd (CByte OGe 33) (CByte OLe 126)) (KGoto (LSt 55) KNil) KNil (KGoto (LTr 37) KNil))));
  (* machine.go:2509 st55 *) ((LSt 55), (KInc (KIf CPe (KGoto (LEofN 55) KNil) KNil KNil)));
  (* machine.go:2513 stCase55 *) ((LCase 55), (KIf (CByte OEq 32) (KGoto (LTr 39) KNil) KNil (KIf (CAnd (CByte OGe 33) (CByte OLe 126)) (KGoto (LSt 56) KNil) KNil (KGoto (LTr 37) KNil))));
  (* machine.go:2521 st56 *) ((LSt 56), (KInc (KIf CPe (KGoto (LEofN 56) KNil) KNil KNil)));
  (* machine.go:2525 stCase56 *) ((LCase 56), (KIf (CByte OEq 32) (KGoto (LTr 39) KNil) KNil (KIf (CAnd (CByte OGe 33) (CByte OLe 126)) (KGoto (LSt 57) KNil) KNil (KGoto (LTr 37) KNil))));
  (* machine.go:2533 st57 *) ((LSt 57), (KInc (KIf CPe (KGoto (LEofN 57) KNil) KNil KNil)));
  (* machine.go:2537 stCase57 *) ((LCase 57), (KIf (CByte OEq 32) (KGoto (LTr 39) KNil) KNil (KIf (CAnd (CByte OGe 33) (CByte OLe 126)) (KGoto (LSt 58) KNil) KNil (KGoto (LTr 37) KNil))));
  (* machine.go:2545 st58 *) ((LSt 58), (KInc (KIf CPe (KGoto (LEofN 58) KNil) KNil KNil)));
  (* machine.go:2549 stCase58 *) ((LCase 58), (KIf (CByte OEq 32) (KGoto (LTr 39) KNil) KNil (KIf (CAnd (CByte OGe 33) (CByte OLe 126)) (KGoto (LSt 59) KNil) KNil (KGoto (LTr 37) KNil))));
  (* machine.go:2557 st59 *) ((LSt 59), (KInc (KIf CPe (KGoto (LEofN 59) KNil) KNil KNil)));
  (* machine.go:2561 stCase59 *) ((LCase 59), (KIf (CByte OEq 32) (KGoto (LTr 39) KNil) KNil (KIf (CAnd (CByte OGe 33) (CByte OLe 126)) (KGoto (LSt 60) KNil) KNil (KGoto (LTr 37) KNil))));
  (* machine.go:2569 st60 *) ((LSt 60), (KInc (KIf CPe (KGoto (LEofN 60) KNil) KNil KNil)));
  (* machine.go:2573 stCase60 *) ((LCase 60), (KIf (CByte OEq 32) (KGoto (LTr 39) KNil) KNil (KIf (CAnd (CByte OGe 33) (CByte OLe 126)) (KGoto (LSt 61) KNil) KNil (KGoto (LTr 37) KNil))));
  (* machine.go:2581 st61 *) ((LSt 61), (KInc (KIf CPe (KGoto (LEofN 61) KNil) KNil KNil)));
  (* machine.go:2585 stCase61 *) ((LCase 61), (KIf (CByte OEq 32) (KGoto (LTr 39) KNil) KNil (KIf (CAnd (CByte OGe 33) (CByte OLe 126)) (KGoto (LSt 62) KNil) KNil (KGoto (LTr 37) KNil))));
  (* machine.go:2593 st62 *) ((LSt 62), (KInc (KIf CPe (KGoto (LEofN 62) KNil) KNil KNil)));
  (* machine.go:2597 stCase62 *) ((LCase 62), (KIf (CByte OEq 32) (KGoto (LTr 39) KNil) KNil (KIf (CAnd (CByte OGe 33) (CByte OLe 126)) (KGoto (LSt 63) KNil) KNil (KGoto (LTr 37) KNil))));
  (* machine.go:2605 st63 *) ((LSt 63), (KInc (KIf CPe (KGoto (LEofN 63) KNil) KNil KNil)));
  (* machine.go:2609 stCase63 *) ((LCase 63), (KIf (CByte OEq 32) (KGoto (LTr 39) KNil) KNil (KIf (CAnd (CByte OGe 33) (CByte OLe 126)) (KGoto (LSt 64) KNil) KNil (KGoto (LTr 37) KNil))));
  (* machine.go:2617 st64 *) ((LSt 64), (KInc (KIf CPe (KGoto (LEofN 64) KNil) KNil KNil)));
  (* machine.go:2621 stCase64 *) ((LCase 64), (KIf (CByte OEq 32) (KGoto (LTr 39) KNil) KNil (KIf (CAnd (CByte OGe 33) (CByte OLe 126)) (KGoto (LSt 65) KNil) KNil (KGoto (LTr 37) KNil))));
  (* machine.go:2629 st65 *) ((LSt 65), (KInc (KIf CPe (KGoto (LEofN 65) KNil) KNil KNil)));
  (* machine.go:2633 stCase65 *) ((LCase 65), (KIf (CByte OEq 32) (KGoto (LTr 39) KNil) KNil (KIf (CAnd (CByte OGe 33) (CByte OLe 126)) (KGoto (LSt 66) KNil) KNil (KGoto (LTr 37) KNil))));
  (* machine.go:2641 st66 *) ((LSt 66), (KInc (KIf CPe (KGoto (LEofN 66) KNil) KNil KNil)));
  (* machine.go:2645 stCase66 *) ((LCase 66), (KIf (CByte OEq 32) (KGoto (LTr 39) KNil) KNil (KIf (CAnd (CByte OGe 33) (CByte OLe 126)) (KGoto (LSt 67) KNil) KNil (KGoto (LTr 37) KNil))));
  (* machine.go:2653 st67 *) ((LSt 67), (KInc (KIf CPe (KGoto (LEofN 67) KNil) KNil KNil)));
  (* machine.go:2657 stCase67 *) ((LCase 67), (KIf (CByte OEq 32) (KGoto (LTr 39) KNil) KNil (KIf (CAnd (CByte OGe 33) (CByte OLe 126)) (KGoto (LSt 68) KNil) KNil (KGoto (LTr 37) KNil))));
  (* machine.go:2665 st68 *) ((LSt 68), (KInc (KIf CPe (KGoto (LEofN 68) KNil) KNil KNil)));
  (* machine.go:2669 stCase68 *) ((LCase 68), (KIf (CByte OEq 32) (KGoto (LTr 39) KNil) KNil (KIf (CAnd (CByte OGe 33) (CByte OLe 126)) (KGoto (LSt 69) KNil) KNil (KGoto (LTr 37) KNil))))
].

(* /repo/rfc3164/machine.go *)
Definition prog3164_4 : list (label * code act cnd) := [
  (* machine.go:2677 st69 *) ((LSt 69), (KInc (KIf CPe (KGoto (LEofN 69) KNil) KNil KNil)));
  (* machine.go:2681 stCase69 *) ((LCase 69), (KIf (CByte OEq 32) (KGoto (LTr 39) KNil) KNil (KIf (CAnd (CByte OGe 33) (CByte OLe 126)) (KGoto (LSt 70) KNil) KNil (KGoto (LTr 37) KNil))));
  (* machine.go:2689 st70 *) ((LSt 70), (KInc (KIf CPe (KGoto (LEofN 70) KNil) KNil KNil)));
  (* machine.go:2693 stCase70 *) ((LCase 70), (KIf (CByte OEq 32) (KGoto (LTr 39) KNil) KNil (KIf (CAnd (CByte OGe 33) (CByte OLe 126)) (KGoto (LSt 71) KNil) KNil (KGoto (LTr 37) KNil))));
  (* machine.go:2701 st71 *) ((LSt 71), (KInc (KIf CPe (KGoto (LEofN 71) KNil) KNil KNil)));
  (* machine.go:2705 stCase71 *) ((LCase 71), (KIf (CByte OEq 32) (KGoto (LTr 39) KNil) KNil (KIf (CAnd (CByte OGe 33) (CByte OLe 126)) (KGoto (LSt 72) KNil) KNil (KGoto (LTr 37) KNil))));
  (* machine.go:2713 st72 *) ((LSt 72), (KInc (KIf CPe (KGoto (LEofN 72) KNil) KNil KNil)));
  (* machine.go:2717 stCase72 *) ((LCase 72), (KIf (CByte OEq 32) (KGoto (LTr 39) KNil) KNil (KIf (CAnd (CByte OGe 33) (CByte OLe 126)) (KGoto (LSt 73) KNil) KNil (KGoto (LTr 37) KNil))));
  (* machine.go:2725 st73 *) ((LSt 73), (KInc (KIf CPe (KGoto (LEofN 73) KNil) KNil KNil)));
  (* machine.go:2729 stCase73 *) ((LCase 73), (KIf (CByte OEq 32) (KGoto (LTr 39) KNil) KNil (KIf (CAnd (CByte OGe 33) (CByte OLe 126)) (KGoto (LSt 74) KNil) KNil (KGoto (LTr 37) KNil))));
  (* machine.go:2737 st74 *) ((LSt 74), (KInc (KIf CPe (KGoto (LEofN 74) KNil) KNil KNil)));
  (* machine.go:2741 stCase74 *) ((LCase 74), (KIf (CByte OEq 32) (KGoto (LTr 39) KNil) KNil (KIf (CAnd (CByte OGe 33) (CByte OLe 126)) (KGoto (LSt 75) KNil) KNil (KGoto (LTr 37) KNil))));
  (* machine.go:2749 st75 *) ((LSt 75), (KInc (KIf CPe (KGoto (LEofN 75) KNil) KNil KNil)));
  (* machine.go:2753 stCase75 *) ((LCase 75), (KIf (CByte OEq 32) (KGoto (LTr 39) KNil) KNil (KIf (CAnd (CByte OGe 33) (CByte OLe 126)) (KGoto (LSt 76) KNil) KNil (KGoto (LTr 37) KNil))));
  (* machine.go:2761 st76 *) ((LSt 76), (KInc (KIf CPe (KGoto (LEofN 76) KNil) KNil KNil)));
  (* machine.go:2765 stCase76 *) ((LCase 76), (KIf (CByte OEq 32) (KGoto (LTr 39) KNil) KNil (KIf (CAnd (CByte OGe 33) (CByte OLe 126)) (KGoto (LSt 77) KNil) KNil (KGoto (LTr 37) KNil))));
  (* machine.go:2773 st77 *) ((LSt 77), (KInc (KIf CPe (KGoto (LEofN 77) KNil) KNil KNil)));
  (* machine.go:2777 stCase77 *) ((LCase 77), (KIf (CByte OEq 32) (KGoto (LTr 39) KNil) KNil (KIf (CAnd (CByte OGe 33) (CByte OLe 126)) (KGoto (LSt 78) KNil) KNil (KGoto (LTr 37) KNil))));
  (* machine.go:2785 st78 *) ((LSt 78), (KInc (KIf CPe (KGoto (LEofN 78) KNil) KNil KNil)));
  (* machine.go:2789 stCase78 *) ((LCase 78), (KIf (CByte OEq 32) (KGoto (LTr 39) KNil) KNil (KIf (CAnd (CByte OGe 33) (CByte OLe 126)) (KGoto (LSt 79) KNil) KNil (KGoto (LTr 37) KNil))));
  (* machine.go:2797 st79 *) ((LSt 79), (KInc (KIf CPe (KGoto (LEofN 79) KNil) KNil KNil)));
  (* machine.go:2801 stCase79 *) ((LCase 79), (KIf (CByte OEq 32) (KGoto (LTr 39) KNil) KNil (KIf (CAnd (CByte OGe 33) (CByte OLe 126)) (KGoto (LSt 80) KNil) KNil (KGoto (LTr 37) KNil))));
  (* machine.go:2809 st80 *) ((LSt 80), (KInc (KIf CPe (KGoto (LEofN 80) KNil) KNil KNil)));
  (* machine.go:2813 stCase80 *) ((LCase 80), (KIf (CByte OEq 32) (KGoto (LTr 39) KNil) KNil (KIf (CAnd (CByte OGe 33) (CByte OLe 126)) (KGoto (LSt 81) KNil) KNil (KGoto (LTr 37) KNil))));
  (* machine.go:2821 st81 *) ((LSt 81), (KInc (KIf CPe (KGoto (LEofN 81) KNil) KNil KNil)));
  (* machine.go:2825 stCase81 *) ((LCase 81), (KIf (CByte OEq 32) (KGoto (LTr 39) KNil) KNil (KIf (CAnd (CByte OGe 33) (CByte OLe 126)) (KGoto (LSt 82) KNil) KNil (KGoto (LTr 37) KNil))));
  (* machine.go:2833 st82 *) ((LSt 82), (KInc (KIf CPe (KGoto (LEofN 82) KNil) KNil KNil)));
  (* machine.go:2837 stCase82 *) ((LCase 82), (KIf (CByte OEq 32) (KGoto (LTr 39) KNil) KNil (KIf (CAnd (CByte OGe 33) (CByte OLe 126)) (KGoto (LSt 83) KNil) KNil (KGoto (LTr 37) KNil))));
  (* machine.go:2845 st83 *) ((LSt 83), (KInc (KIf CPe (KGoto (LEofN 83) KNil) KNil KNil)));
  (* machine.go:2849 stCase83 *) ((LCase 83), (KIf (CByte OEq 32) (KGoto (LTr 39) KNil) KNil (KIf (CAnd (CByte OGe 33) (CByte OLe 126)) (KGoto (LSt 84) KNil) KNil (KGoto (LTr 37) KNil))));
  (* machine.go:2857 st84 *) ((LSt 84), (KInc (KIf CPe (KGoto (LEofN 84) KNil) KNil KNil)));
  (* machine.go:2861 stCase84 *) ((LCase 84), (KIf (CByte OEq 32) (KGoto (LTr 39) KNil) KNil (KIf (CAnd (CByte OGe 33) (CByte OLe 126)) (KGoto (LSt 85) KNil) KNil (KGoto (LTr 37) KNil))));
  (* machine.go:2869 st85 *) ((LSt 85), (KInc (KIf CPe (KGoto (LEofN 85) KNil) KNil KNil)));
  (* machine.go:2873 stCase85 *) ((LCase 85), (KIf (CByte OEq 32) (KGoto (LTr 39) KNil) KNil (KIf (CAnd (CByte OGe 33) (CByte OLe 126)) (KGoto (LSt 86) KNil) KNil (KGoto (LTr 37) KNil))));
  (* machine.go:2881 st86 *) ((LSt 86), (KInc (KIf CPe (KGoto (LEofN 86) KNil) KNil KNil)));
  (* machine.go:2885 stCase86 *) ((LCase 86), (KIf (CByte OEq 32) (KGoto (LTr 39) KNil) KNil (KIf (CAnd (CByte OGe 33) (CByte OLe 126)) (KGoto (LSt 87) KNil) KNil (KGoto (LTr 37) KNil))));
  (* machine.go:2893 st87 *) ((LSt 87), (KInc (KIf CPe (KGoto (LEofN 87) KNil) KNil KNil)));
  (* machine.go:2897 stCase87 *) ((LCase 87), (KIf (CByte OEq 32) (KGoto (LTr 39) KNil) KNil (KIf (CAnd (CByte OGe 33) (CByte OLe 126)) (KGoto (LSt 88) KNil) KNil (KGoto (LTr 37) KNil))));
  (* machine.go:2905 st88 *) ((LSt 88), (KInc (KIf CPe (KGoto (LEofN 88) KNil) KNil KNil)));
  (* machine.go:2909 stCase88 *) ((LCase 88), (KIf (CByte OEq 32) (KGoto (LTr 39) KNil) KNil (KIf (CAnd (CByte OGe 33) (CByte OLe 126)) (KGoto (LSt 89) KNil) KNil (KGoto (LTr 37) KNil))));
  (* machine.go:2917 st89 *) ((LSt 89), (KInc (KIf CPe (KGoto (LEofN 89) KNil) KNil KNil)));
  (* machine.go:2921 stCase89 *) ((LCase 89), (KIf (CByte OEq 32) (KGoto (LTr 39) KNil) KNil (KIf (CAnd (CByte OGe 33) (CByte OLe 126)) (KGoto (LSt 90) KNil) KNil (KGoto (LTr 37) KNil))));
  (* machine.go:2929 st90 *) ((LSt 90), (KInc (KIf CPe (KGoto (LEofN 90) KNil) KNil KNil)));
  (* machine.go:2933 stCase90 *) ((LCase 90), (KIf (CByte OEq 32) (KGoto (LTr 39) KNil) KNil (KIf (CAnd (CByte OGe 33) (CByte OLe 126)) (KGoto (LSt 91) KNil) KNil (KGoto (LTr 37) KNil))));
  (* machine.go:2941 st91 *) ((LSt 91), (KInc (KIf CPe (KGoto (LEofN 91) KNil) KNil KNil)));
  (* machine.go:2945 stCase91 *) ((LCase 91), (KIf (CByte OEq 32) (KGoto (LTr 39) KNil) KNil (KIf (CAnd (CByte OGe 33) (CByte OLe 126)) (KGoto (LSt 92) KNil) KNil (KGoto (LTr 37) KNil))));
  (* machine.go:2953 st92 *) ((LSt 92), (KInc (KIf CPe (KGoto (LEofN 92) KNil) KNil KNil)));
  (* machine.go:2957 stCase92 *) ((LCase 92), (KIf (CByte OEq 32) (KGoto (LTr 39) KNil) KNil (KIf (CAnd (CByte OGe 33) (CByte OLe 126)) (KGoto (LSt 93) KNil) KNil (KGoto (LTr 37) KNil))));
  (* machine.go:2965 st93 *) ((LSt 93), (KInc (KIf CPe (KGoto (LEofN 93) KNil) KNil KNil)));
  (* machine.go:2969 stCase93 *) ((LCase 93), (KIf (CByte OEq 32) (KGoto (LTr 39) KNil) KNil (KIf (CAnd (CByte OGe 33) (CByte OLe 126)) (KGoto (LSt 94) KNil) KNil (KGoto (LTr 37) KNil))));
  (* machine.go:2977 st94 *) ((LSt 94), (KInc (KIf CPe (KGoto (LEofN 94) KNil) KNil KNil)));
  (* machine.go:2981 stCase94 *) ((LCase 94), (KIf (CByte OEq 32) (KGoto (LTr 39) KNil) KNil (KIf (CAnd (CByte OGe 33) (CByte OLe 126)) (KGoto (LSt 95) KNil) KNil (KGoto (LTr 37) KNil))));
  (* machine.go:2989 st95 *) ((LSt 95), (KInc (KIf CPe (KGoto (LEofN 95) KNil) KNil KNil)));
  (* machine.go:2993 stCase95 *) ((LCase 95), (KIf (CByte OEq 32) (KGoto (LTr 39) KNil) KNil (KIf (CAnd (CByte OGe 33) (CByte OLe 126)) (KGoto (LSt 96) KNil) KNil (KGoto (LTr 37) KNil))));
  (* machine.go:3001 st96 *) ((LSt 96), (KInc (KIf CPe (KGoto (LEofN 96) KNil) KNil KNil)));
  (* machine.go:3005 stCase96 *) ((LCase 96), (KIf (CByte OEq 32) (KGoto (LTr 39) KNil) KNil (KIf (CAnd (CByte OGe 33) (CByte OLe 126)) (KGoto (LSt 97) KNil) KNil (KGoto (LTr 37) KNil))));
  (* machine.go:3013 st97 *) ((LSt 97), (KInc (KIf CPe (KGoto (LEofN 97) KNil) KNil KNil)));
  (* machine.go:3017 stCase97 *) ((LCase 97), (KIf (CByte OEq 32) (KGoto (LTr 39) KNil) KNil (KIf (CAnd (CByte OGe 33) (CByte OLe 126)) (KGoto (LSt 98) KNil) KNil (KGoto (LTr 37) KNil))));
  (* machine.go:3025 st98 *) ((LSt 98), (KInc (KIf CPe (KGoto (LEofN 98) KNil) KNil KNil)));
  (* machine.go:3029 stCase98 *) ((LCase 98), (KIf (CByte OEq 32) (KGoto (LTr 39) KNil) KNil (KIf (CAnd (CByte OGe 33) (CByte OLe 126)) (KGoto (LSt 99) KNil) KNil (KGoto (LTr 37) KNil))))
].

(* /repo/rfc3164/machine.go *)
Definition prog3164_5 : list (label * code act cnd) := [
  (* machine.go:3037 st99 *) ((LSt 99), (KInc (KIf CPe (KGoto (LEofN 99) KNil) KNil KNil)));
  (* machine.go:3041 stCase99 *) ((LCase 99), (KIf (CByte OEq 32) (KGoto (LTr 39) KNil) KNil (KIf (CAnd (CByte OGe 33) (CByte OLe 126)) (KGoto (LSt 100) KNil) KNil (KGoto (LTr 37) KNil))));
  (* machine.go:3049 st100 *) ((LSt 100), (KInc (KIf CPe (KGoto (LEofN 100) KNil) KNil KNil)));
  (* machine.go:3053 stCase100 *) ((LCase 100), (KIf (CByte OEq 32) (KGoto (LTr 39) KNil) KNil (KIf (CAnd (CByte OGe 33) (CByte OLe 126)) (KGoto (LSt 101) KNil) KNil (KGoto (LTr 37) KNil))));
  (* machine.go:3061 st101 *) ((LSt 101), (KInc (KIf CPe (KGoto (LEofN 101) KNil) KNil KNil)));
  (* machine.go:3065 stCase101 *) ((LCase 101), (KIf (CByte OEq 32) (KGoto (LTr 39) KNil) KNil (KIf (CAnd (CByte OGe 33) (CByte OLe 126)) (KGoto (LSt 102) KNil) KNil (KGoto (LTr 37) KNil))));
  (* machine.go:3073 st102 *) ((LSt 102), (KInc (KIf CPe (KGoto (LEofN 102) KNil) KNil KNil)));
  (* machine.go:3077 stCase102 *) ((LCase 102), (KIf (CByte OEq 32) (KGoto (LTr 39) KNil) KNil (KIf (CAnd (CByte OGe 33) (CByte OLe 126)) (KGoto (LSt 103) KNil) KNil (KGoto (LTr 37) KNil))));
  (* machine.go:3085 st103 *) ((LSt 103), (KInc (KIf CPe (KGoto (LEofN 103) KNil) KNil KNil)));
  (* machine.go:3089 stCase103 *) ((LCase 103), (KIf (CByte OEq 32) (KGoto (LTr 39) KNil) KNil (KIf (CAnd (CByte OGe 33) (CByte OLe 126)) (KGoto (LSt 104) KNil) KNil (KGoto (LTr 37) KNil))));
  (* machine.go:3097 st104 *) ((LSt 104), (KInc (KIf CPe (KGoto (LEofN 104) KNil) KNil KNil)));
  (* machine.go:3101 stCase104 *) ((LCase 104), (KIf (CByte OEq 32) (KGoto (LTr 39) KNil) KNil (KIf (CAnd (CByte OGe 33) (CByte OLe 126)) (KGoto (LSt 105) KNil) KNil (KGoto (LTr 37) KNil))));
  (* machine.go:3109 st105 *) ((LSt 105), (KInc (KIf CPe (KGoto (LEofN 105) KNil) KNil KNil)));
  (* machine.go:3113 stCase105 *) ((LCase 105), (KIf (CByte OEq 32) (KGoto (LTr 39) KNil) KNil (KIf (CAnd (CByte OGe 33) (CByte OLe 126)) (KGoto (LSt 106) KNil) KNil (KGoto (LTr 37) KNil))));
  (* machine.go:3121 st106 *) ((LSt 106), (KInc (KIf CPe (KGoto (LEofN 106) KNil) KNil KNil)));
  (* machine.go:3125 stCase106 *) ((LCase 106), (KIf (CByte OEq 32) (KGoto (LTr 39) KNil) KNil (KIf (CAnd (CByte OGe 33) (CByte OLe 126)) (KGoto (LSt 107) KNil) KNil (KGoto (LTr 37) KNil))));
  (* machine.go:3133 st107 *) ((LSt 107), (KInc (KIf CPe (KGoto (LEofN 107) KNil) KNil KNil)));
  (* machine.go:3137 stCase107 *) ((LCase 107), (KIf (CByte OEq 32) (KGoto (LTr 39) KNil) KNil (KIf (CAnd (CByte OGe 33) (CByte OLe 126)) (KGoto (LSt 108) KNil) KNil (KGoto (LTr 37) KNil))));
  (* machine.go:3145 st108 *) ((LSt 108), (KInc (KIf CPe (KGoto (LEofN 108) KNil) KNil KNil)));
  (* machine.go:3149 stCase108 *) ((LCase 108), (KIf (CByte OEq 32) (KGoto (LTr 39) KNil) KNil (KIf (CAnd (CByte OGe 33) (CByte OLe 126)) (KGoto (LSt 109) KNil) KNil (KGoto (LTr 37) KNil))));
  (* machine.go:3157 st109 *) ((LSt 109), (KInc (KIf CPe (KGoto (LEofN 109) KNil) KNil KNil)));
  (* machine.go:3161 stCase109 *) ((LCase 109), (KIf (CByte OEq 32) (KGoto (LTr 39) KNil) KNil (KIf (CAnd (CByte OGe 33) (CByte OLe 126)) (KGoto (LSt 110) KNil) KNil (KGoto (LTr 37) KNil))));
  (* machine.go:3169 st110 *) ((LSt 110), (KInc (KIf CPe (KGoto (LEofN 110) KNil) KNil KNil)));
  (* machine.go:3173 stCase110 *) ((LCase 110), (KIf (CByte OEq 32) (KGoto (LTr 39) KNil) KNil (KIf (CAnd (CByte OGe 33) (CByte OLe 126)) (KGoto (LSt 111) KNil) KNil (KGoto (LTr 37) KNil))));
  (* machine.go:3181 st111 *) ((LSt 111), (KInc (KIf CPe (KGoto (LEofN 111) KNil) KNil KNil)));
  (* machine.go:3185 stCase111 *) ((LCase 111), (KIf (CByte OEq 32) (KGoto (LTr 39) KNil) KNil (KIf (CAnd (CByte OGe 33) (CByte OLe 126)) (KGoto (LSt 112) KNil) KNil (KGoto (LTr 37) KNil))));
  (* machine.go:3193 st112 *) ((LSt 112), (KInc (KIf CPe (KGoto (LEofN 112) KNil) KNil KNil)));
  (* machine.go:3197 stCase112 *) ((LCase 112), (KIf (CByte OEq 32) (KGoto (LTr 39) KNil) KNil (KIf (CAnd (CByte OGe 33) (CByte OLe 126)) (KGoto (LSt 113) KNil) KNil (KGoto (LTr 37) KNil))));
  (* machine.go:3205 st113 *) ((LSt 113), (KInc (KIf CPe (KGoto (LEofN 113) KNil) KNil KNil)));
  (* machine.go:3209 stCase113 *) ((LCase 113), (KIf (CByte OEq 32) (KGoto (LTr 39) KNil) KNil (KIf (CAnd (CByte OGe 33) (CByte OLe 126)) (KGoto (LSt 114) KNil) KNil (KGoto (LTr 37) KNil))));
  (* machine.go:3217 st114 *) ((LSt 114), (KInc (KIf CPe (KGoto (LEofN 114) KNil) KNil KNil)));
  (* machine.go:3221 stCase114 *) ((LCase 114), (KIf (CByte OEq 32) (KGoto (LTr 39) KNil) KNil (KIf (CAnd (CByte OGe 33) (CByte OLe 126)) (KGoto (LSt 115) KNil) KNil (KGoto (LTr 37) KNil))));
  (* machine.go:3229 st115 *) ((LSt 115), (KInc (KIf CPe (KGoto (LEofN 115) KNil) KNil KNil)));
  (* machine.go:3233 stCase115 *) ((LCase 115), (KIf (CByte OEq 32) (KGoto (LTr 39) KNil) KNil (KIf (CAnd (CByte OGe 33) (CByte OLe 126)) (KGoto (LSt 116) KNil) KNil (KGoto (LTr 37) KNil))));
  (* machine.go:3241 st116 *) ((LSt 116), (KInc (KIf CPe (KGoto (LEofN 116) KNil) KNil KNil)));
  (* machine.go:3245 stCase116 *) ((LCase 116), (KIf (CByte OEq 32) (KGoto (LTr 39) KNil) KNil (KIf (CAnd (CByte OGe 33) (CByte OLe 126)) (KGoto (LSt 117) KNil) KNil (KGoto (LTr 37) KNil))));
  (* machine.go:3253 st117 *) ((LSt 117), (KInc (KIf CPe (KGoto (LEofN 117) KNil) KNil KNil)));
  (* machine.go:3257 stCase117 *) ((LCase 117), (KIf (CByte OEq 32) (KGoto (LTr 39) KNil) KNil (KIf (CAnd (CByte OGe 33) (CByte OLe 126)) (KGoto (LSt 118) KNil) KNil (KGoto (LTr 37) KNil))));
  (* machine.go:3265 st118 *) ((LSt 118), (KInc (KIf CPe (KGoto (LEofN 118) KNil) KNil KNil)));
  (* machine.go:3269 stCase118 *) ((LCase 118), (KIf (CByte OEq 32) (KGoto (LTr 39) KNil) KNil (KIf (CAnd (CByte OGe 33) (CByte OLe 126)) (KGoto (LSt 119) KNil) KNil (KGoto (LTr 37) KNil))));
  (* machine.go:3277 st119 *) ((LSt 119), (KInc (KIf CPe (KGoto (LEofN 119) KNil) KNil KNil)));
  (* machine.go:3281 stCase119 *) ((LCase 119), (KIf (CByte OEq 32) (KGoto (LTr 39) KNil) KNil (KIf (CAnd (CByte OGe 33) (CByte OLe 126)) (KGoto (LSt 120) KNil) KNil (KGoto (LTr 37) KNil))));
  (* machine.go:3289 st120 *) ((LSt 120), (KInc (KIf CPe (KGoto (LEofN 120) KNil) KNil KNil)));
  (* machine.go:3293 stCase120 *) ((LCase 120), (KIf (CByte OEq 32) (KGoto (LTr 39) KNil) KNil (KIf (CAnd (CByte OGe 33) (CByte OLe 126)) (KGoto (LSt 121) KNil) KNil (KGoto (LTr 37) KNil))));
  (* machine.go:3301 st121 *) ((LSt 121), (KInc (KIf CPe (KGoto (LEofN 121) KNil) KNil KNil)));
  (* machine.go:3305 stCase121 *) ((LCase 121), (KIf (CByte OEq 32) (KGoto (LTr 39) KNil) KNil (KIf (CAnd (CByte OGe 33) (CByte OLe 126)) (KGoto (LSt 122) KNil) KNil (KGoto (LTr 37) KNil))));
  (* machine.go:3313 st122 *) ((LSt 122), (KInc (KIf CPe (KGoto (LEofN 122) KNil) KNil KNil)));
  (* machine.go:3317 stCase122 *) ((LCase 122), (KIf (CByte OEq 32) (KGoto (LTr 39) KNil) KNil (KIf (CAnd (CByte OGe 33) (CByte OLe 126)) (KGoto (LSt 123) KNil) KNil (KGoto (LTr 37) KNil))));
  (* machine.go:3325 st123 *) ((LSt 123), (KInc (KIf CPe (KGoto (LEofN 123) KNil) KNil KNil)));
  (* machine.go:3329 stCase123 *) ((LCase 123), (KIf (CByte OEq 32) (KGoto (LTr 39) KNil) KNil (KIf (CAnd (CByte OGe 33) (CByte OLe 126)) (KGoto (LSt 124) KNil) KNil (KGoto (LTr 37) KNil))));
  (* machine.go:3337 st124 *) ((LSt 124), (KInc (KIf CPe (KGoto (LEofN 124) KNil) KNil KNil)));
  (* machine.go:3341 stCase124 *) ((LCase 124), (KIf (CByte OEq 32) (KGoto (LTr 39) KNil) KNil (KIf (CAnd (CByte OGe 33) (CByte OLe 126)) (KGoto (LSt 125) KNil) KNil (KGoto (LTr 37) KNil))));
  (* machine.go:3349 st125 *) ((LSt 125), (KInc (KIf CPe (KGoto (LEofN 125) KNil) KNil KNil)));
  (* machine.go:3353 stCase125 *) ((LCase 125), (KIf (CByte OEq 32) (KGoto (LTr 39) KNil) KNil (KIf (CAnd (CByte OGe 33) (CByte OLe 126)) (KGoto (LSt 126) KNil) KNil (KGoto (LTr 37) KNil))));
  (* machine.go:3361 st126 *) ((LSt 126), (KInc (KIf CPe (KGoto (LEofN 126) KNil) KNil KNil)));
  (* machine.go:3365 stCase126 *) ((LCase 126), (KIf (CByte OEq 32) (KGoto (LTr 39) KNil) KNil (KIf (CAnd (CByte OGe 33) (CByte OLe 126)) (KGoto (LSt 127) KNil) KNil (KGoto (LTr 37) KNil))));
  (* machine.go:3373 st127 *) ((LSt 127), (KInc (KIf CPe (KGoto (LEofN 127) KNil) KNil KNil)));
  (* machine.go:3377 stCase127 *) ((LCase 127), (KIf (CByte OEq 32) (KGoto (LTr 39) KNil) KNil (KIf (CAnd (CByte OGe 33) (CByte OLe 126)) (KGoto (LSt 128) KNil) KNil (KGoto (LTr 37) KNil))));
  (* machine.go:3385 st128 *) ((LSt 128), (KInc (KIf CPe (KGoto (LEofN 128) KNil) KNil KNil)));
  (* machine.go:3389 stCase128 *) ((LCase 128), (KIf (CByte OEq 32) (KGoto (LTr 39) KNil) KNil (KIf (CAnd (CByte OGe 33) (CByte OLe 126)) (KGoto (LSt 129) KNil) KNil (KGoto (LTr 37) KNil))))
].

(* /repo/rfc3164/machine.go *)
Definition prog3164_6 : list (label * code act cnd) := [
  (* machine.go:3397 st129 *) ((LSt 129), (KInc (KIf CPe (KGoto (LEofN 129) KNil) KNil KNil)));
  (* machine.go:3401 stCase129 *) ((LCase 129), (KIf (CByte OEq 32) (KGoto (LTr 39) KNil) KNil (KIf (CAnd (CByte OGe 33) (CByte OLe 126)) (KGoto (LSt 130) KNil) KNil (KGoto (LTr 37) KNil))));
  (* machine.go:3409 st130 *) ((LSt 130), (KInc (KIf CPe (KGoto (LEofN 130) KNil) KNil KNil)));
  (* machine.go:3413 stCase130 *) ((LCase 130), (KIf (CByte OEq 32) (KGoto (LTr 39) KNil) KNil (KIf (CAnd (CByte OGe 33) (CByte OLe 126)) (KGoto (LSt 131) KNil) KNil (KGoto (LTr 37) KNil))));
  (* machine.go:3421 st131 *) ((LSt 131), (KInc (KIf CPe (KGoto (LEofN 131) KNil) KNil KNil)));
  (* machine.go:3425 stCase131 *) ((LCase 131), (KIf (CByte OEq 32) (KGoto (LTr 39) KNil) KNil (KIf (CAnd (CByte OGe 33) (CByte OLe 126)) (KGoto (LSt 132) KNil) KNil (KGoto (LTr 37) KNil))));
  (* machine.go:3433 st132 *) ((LSt 132), (KInc (KIf CPe (KGoto (LEofN 132) KNil) KNil KNil)));
  (* machine.go:3437 stCase132 *) ((LCase 132), (KIf (CByte OEq 32) (KGoto (LTr 39) KNil) KNil (KIf (CAnd (CByte OGe 33) (CByte OLe 126)) (KGoto (LSt 133) KNil) KNil (KGoto (LTr 37) KNil))));
  (* machine.go:3445 st133 *) ((LSt 133), (KInc (KIf CPe (KGoto (LEofN 133) KNil) KNil KNil)));
  (* machine.go:3449 stCase133 *) ((LCase 133), (KIf (CByte OEq 32) (KGoto (LTr 39) KNil) KNil (KIf (CAnd (CByte OGe 33) (CByte OLe 126)) (KGoto (LSt 134) KNil) KNil (KGoto (LTr 37) KNil))));
  (* machine.go:3457 st134 *) ((LSt 134), (KInc (KIf CPe (KGoto (LEofN 134) KNil) KNil KNil)));
  (* machine.go:3461 stCase134 *) ((LCase 134), (KIf (CByte OEq 32) (KGoto (LTr 39) KNil) KNil (KIf (CAnd (CByte OGe 33) (CByte OLe 126)) (KGoto (LSt 135) KNil) KNil (KGoto (LTr 37) KNil))));
  (* machine.go:3469 st135 *) ((LSt 135), (KInc (KIf CPe (KGoto (LEofN 135) KNil) KNil KNil)));
  (* machine.go:3473 stCase135 *) ((LCase 135), (KIf (CByte OEq 32) (KGoto (LTr 39) KNil) KNil (KIf (CAnd (CByte OGe 33) (CByte OLe 126)) (KGoto (LSt 136) KNil) KNil (KGoto (LTr 37) KNil))));
  (* machine.go:3481 st136 *) ((LSt 136), (KInc (KIf CPe (KGoto (LEofN 136) KNil) KNil KNil)));
  (* machine.go:3485 stCase136 *) ((LCase 136), (KIf (CByte OEq 32) (KGoto (LTr 39) KNil) KNil (KIf (CAnd (CByte OGe 33) (CByte OLe 126)) (KGoto (LSt 137) KNil) KNil (KGoto (LTr 37) KNil))));
  (* machine.go:3493 st137 *) ((LSt 137), (KInc (KIf CPe (KGoto (LEofN 137) KNil) KNil KNil)));
  (* machine.go:3497 stCase137 *) ((LCase 137), (KIf (CByte OEq 32) (KGoto (LTr 39) KNil) KNil (KIf (CAnd (CByte OGe 33) (CByte OLe 126)) (KGoto (LSt 138) KNil) KNil (KGoto (LTr 37) KNil))));
  (* machine.go:3505 st138 *) ((LSt 138), (KInc (KIf CPe (KGoto (LEofN 138) KNil) KNil KNil)));
  (* machine.go:3509 stCase138 *) ((LCase 138), (KIf (CByte OEq 32) (KGoto (LTr 39) KNil) KNil (KIf (CAnd (CByte OGe 33) (CByte OLe 126)) (KGoto (LSt 139) KNil) KNil (KGoto (LTr 37) KNil))));
  (* machine.go:3517 st139 *) ((LSt 139), (KInc (KIf CPe (KGoto (LEofN 139) KNil) KNil KNil)));
  (* machine.go:3521 stCase139 *) ((LCase 139), (KIf (CByte OEq 32) (KGoto (LTr 39) KNil) KNil (KIf (CAnd (CByte OGe 33) (CByte OLe 126)) (KGoto (LSt 140) KNil) KNil (KGoto (LTr 37) KNil))));
  (* machine.go:3529 st140 *) ((LSt 140), (KInc (KIf CPe (KGoto (LEofN 140) KNil) KNil KNil)));
  (* machine.go:3533 stCase140 *) ((LCase 140), (KIf (CByte OEq 32) (KGoto (LTr 39) KNil) KNil (KIf (CAnd (CByte OGe 33) (CByte OLe 126)) (KGoto (LSt 141) KNil) KNil (KGoto (LTr 37) KNil))));
  (* machine.go:3541 st141 *) ((LSt 141), (KInc (KIf CPe (KGoto (LEofN 141) KNil) KNil KNil)));
  (* machine.go:3545 stCase141 *) ((LCase 141), (KIf (CByte OEq 32) (KGoto (LTr 39) KNil) KNil (KIf (CAnd (CByte OGe 33) (CByte OLe 126)) (KGoto (LSt 142) KNil) KNil (KGoto (LTr 37) KNil))));
  (* machine.go:3553 st142 *) ((LSt 142), (KInc (KIf CPe (KGoto (LEofN 142) KNil) KNil KNil)));
  (* machine.go:3557 stCase142 *) ((LCase 142), (KIf (CByte OEq 32) (KGoto (LTr 39) KNil) KNil (KIf (CAnd (CByte OGe 33) (CByte OLe 126)) (KGoto (LSt 143) KNil) KNil (KGoto (LTr 37) KNil))));
  (* machine.go:3565 st143 *) ((LSt 143), (KInc (KIf CPe (KGoto (LEofN 143) KNil) KNil KNil)));
  (* machine.go:3569 stCase143 *) ((LCase 143), (KIf (CByte OEq 32) (KGoto (LTr 39) KNil) KNil (KIf (CAnd (CByte OGe 33) (CByte OLe 126)) (KGoto (LSt 144) KNil) KNil (KGoto (LTr 37) KNil))));
  (* machine.go:3577 st144 *) ((LSt 144), (KInc (KIf CPe (KGoto (LEofN 144) KNil) KNil KNil)));
  (* machine.go:3581 stCase144 *) ((LCase 144), (KIf (CByte OEq 32) (KGoto (LTr 39) KNil) KNil (KIf (CAnd (CByte OGe 33) (CByte OLe 126)) (KGoto (LSt 145) KNil) KNil (KGoto (LTr 37) KNil))));
  (* machine.go:3589 st145 *) ((LSt 145), (KInc (KIf CPe (KGoto (LEofN 145) KNil) KNil KNil)));
  (* machine.go:3593 stCase145 *) ((LCase 145), (KIf (CByte OEq 32) (KGoto (LTr 39) KNil) KNil (KIf (CAnd (CByte OGe 33) (CByte OLe 126)) (KGoto (LSt 146) KNil) KNil (KGoto (LTr 37) KNil))));
  (* machine.go:3601 st146 *) ((LSt 146), (KInc (KIf CPe (KGoto (LEofN 146) KNil) KNil KNil)));
  (* machine.go:3605 stCase146 *) ((LCase 146), (KIf (CByte OEq 32) (KGoto (LTr 39) KNil) KNil (KIf (CAnd (CByte OGe 33) (CByte OLe 126)) (KGoto (LSt 147) KNil) KNil (KGoto (LTr 37) KNil))));
  (* machine.go:3613 st147 *) ((LSt 147), (KInc (KIf CPe (KGoto (LEofN 147) KNil) KNil KNil)));
  (* machine.go:3617 stCase147 *) ((LCase 147), (KIf (CByte OEq 32) (KGoto (LTr 39) KNil) KNil (KIf (CAnd (CByte OGe 33) (CByte OLe 126)) (KGoto (LSt 148) KNil) KNil (KGoto (LTr 37) KNil))));
  (* machine.go:3625 st148 *) ((LSt 148), (KInc (KIf CPe (KGoto (LEofN 148) KNil) KNil KNil)));
  (* machine.go:3629 stCase148 *) ((LCase 148), (KIf (CByte OEq 32) (KGoto (LTr 39) KNil) KNil (KIf (CAnd (CByte OGe 33) (CByte OLe 126)) (KGoto (LSt 149) KNil) KNil (KGoto (LTr 37) KNil))));
  (* machine.go:3637 st149 *) ((LSt 149), (KInc (KIf CPe (KGoto (LEofN 149) KNil) KNil KNil)));
  (* machine.go:3641 stCase149 *) ((LCase 149), (KIf (CByte OEq 32) (KGoto (LTr 39) KNil) KNil (KIf (CAnd (CByte OGe 33) (CByte OLe 126)) (KGoto (LSt 150) KNil) KNil (KGoto (LTr 37) KNil))));
  (* machine.go:3649 st150 *) ((LSt 150), (KInc (KIf CPe (KGoto (LEofN 150) KNil) KNil KNil)));
  (* machine.go:3653 stCase150 *) ((LCase 150), (KIf (CByte OEq 32) (KGoto (LTr 39) KNil) KNil (KIf (CAnd (CByte OGe 33) (CByte OLe 126)) (KGoto (LSt 151) KNil) KNil (KGoto (LTr 37) KNil))));
  (* machine.go:3661 st151 *) ((LSt 151), (KInc (KIf CPe (KGoto (LEofN 151) KNil) KNil KNil)));
  (* machine.go:3665 stCase151 *) ((LCase 151), (KIf (CByte OEq 32) (KGoto (LTr 39) KNil) KNil (KIf (CAnd (CByte OGe 33) (CByte OLe 126)) (KGoto (LSt 152) KNil) KNil (KGoto (LTr 37) KNil))));
  (* machine.go:3673 st152 *) ((LSt 152), (KInc (KIf CPe (KGoto (LEofN 152) KNil) KNil KNil)));
  (* machine.go:3677 stCase152 *) ((LCase 152), (KIf (CByte OEq 32) (KGoto (LTr 39) KNil) KNil (KIf (CAnd (CByte OGe 33) (CByte OLe 126)) (KGoto (LSt 153) KNil) KNil (KGoto (LTr 37) KNil))));
  (* machine.go:3685 st153 *) ((LSt 153), (KInc (KIf CPe (KGoto (LEofN 153) KNil) KNil KNil)));
  (* machine.go:3689 stCase153 *) ((LCase 153), (KIf (CByte OEq 32) (KGoto (LTr 39) KNil) KNil (KIf (CAnd (CByte OGe 33) (CByte OLe 126)) (KGoto (LSt 154) KNil) KNil (KGoto (LTr 37) KNil))));
  (* machine.go:3697 st154 *) ((LSt 154), (KInc (KIf CPe (KGoto (LEofN 154) KNil) KNil KNil)));
  (* machine.go:3701 stCase154 *) ((LCase 154), (KIf (CByte OEq 32) (KGoto (LTr 39) KNil) KNil (KIf (CAnd (CByte OGe 33) (CByte OLe 126)) (KGoto (LSt 155) KNil) KNil (KGoto (LTr 37) KNil))));
  (* machine.go:3709 st155 *) ((LSt 155), (KInc (KIf CPe (KGoto (LEofN 155) KNil) KNil KNil)));
  (* machine.go:3713 stCase155 *) ((LCase 155), (KIf (CByte OEq 32) (KGoto (LTr 39) KNil) KNil (KIf (CAnd (CByte OGe 33) (CByte OLe 126)) (KGoto (LSt 156) KNil) KNil (KGoto (LTr 37) KNil))));
  (* machine.go:3721 st156 *) ((LSt 156), (KInc (KIf CPe (KGoto (LEofN 156) KNil) KNil KNil)));
  (* machine.go:3725 stCase156 *) ((LCase 156), (KIf (CByte OEq 32) (KGoto (LTr 39) KNil) KNil (KIf (CAnd (CByte OGe 33) (CByte OLe 126)) (KGoto (LSt 157) KNil) KNil (KGoto (LTr 37) KNil))));
  (* machine.go:3733 st157 *) ((LSt 157), (KInc (KIf CPe (KGoto (LEofN 157) KNil) KNil KNil)));
  (* machine.go:3737 stCase157 *) ((LCase 157), (KIf (CByte OEq 32) (KGoto (LTr 39) KNil) KNil (KIf (CAnd (CByte OGe 33) (CByte OLe 126)) (KGoto (LSt 158) KNil) KNil (KGoto (LTr 37) KNil))));
  (* machine.go:3745 st158 *) ((LSt 158), (KInc (KIf CPe (KGoto (LEofN 158) KNil) KNil KNil)));
  (* machine.go:3749 stCase158 *) ((LCase 158), (KIf (CByte OEq 32) (KGoto (LTr 39) KNil) KNil (KIf (CAnd (CByte OGe 33) (CByte OLe 126)) (KGoto (LSt 159) KNil) KNil (KGoto (LTr 37) KNil))))
].

(* /repo/rfc3164/machine.go *)
Definition prog3164_7 : list (label * code act cnd) := [
  (* machine.go:3757 st159 *) ((LSt 159), (KInc (KIf CPe (KGoto (LEofN 159) KNil) KNil KNil)));
  (* machine.go:3761 stCase159 *) ((LCase 159), (KIf (CByte OEq 32) (KGoto (LTr 39) KNil) KNil (KIf (CAnd (CByte OGe 33) (CByte OLe 126)) (KGoto (LSt 160) KNil) KNil (KGoto (LTr 37) KNil))));
  (* machine.go:3769 st160 *) ((LSt 160), (KInc (KIf CPe (KGoto (LEofN 160) KNil) KNil KNil)));
  (* machine.go:3773 stCase160 *) ((LCase 160), (KIf (CByte OEq 32) (KGoto (LTr 39) KNil) KNil (KIf (CAnd (CByte OGe 33) (CByte OLe 126)) (KGoto (LSt 161) KNil) KNil (KGoto (LTr 37) KNil))));
  (* machine.go:3781 st161 *) ((LSt 161), (KInc (KIf CPe (KGoto (LEofN 161) KNil) KNil KNil)));
  (* machine.go:3785 stCase161 *) ((LCase 161), (KIf (CByte OEq 32) (KGoto (LTr 39) KNil) KNil (KIf (CAnd (CByte OGe 33) (CByte OLe 126)) (KGoto (LSt 162) KNil) KNil (KGoto (LTr 37) KNil))));
  (* machine.go:3793 st162 *) ((LSt 162), (KInc (KIf CPe (KGoto (LEofN 162) KNil) KNil KNil)));
  (* machine.go:3797 stCase162 *) ((LCase 162), (KIf (CByte OEq 32) (KGoto (LTr 39) KNil) KNil (KIf (CAnd (CByte OGe 33) (CByte OLe 126)) (KGoto (LSt 163) KNil) KNil (KGoto (LTr 37) KNil))));
  (* machine.go:3805 st163 *) ((LSt 163), (KInc (KIf CPe (KGoto (LEofN 163) KNil) KNil KNil)));
  (* machine.go:3809 stCase163 *) ((LCase 163), (KIf (CByte OEq 32) (KGoto (LTr 39) KNil) KNil (KIf (CAnd (CByte OGe 33) (CByte OLe 126)) (KGoto (LSt 164) KNil) KNil (KGoto (LTr 37) KNil))));
  (* machine.go:3817 st164 *) ((LSt 164), (KInc (KIf CPe (KGoto (LEofN 164) KNil) KNil KNil)));
  (* machine.go:3821 stCase164 *) ((LCase 164), (KIf (CByte OEq 32) (KGoto (LTr 39) KNil) KNil (KIf (CAnd (CByte OGe 33) (CByte OLe 126)) (KGoto (LSt 165) KNil) KNil (KGoto (LTr 37) KNil))));
  (* machine.go:3829 st165 *) ((LSt 165), (KInc (KIf CPe (KGoto (LEofN 165) KNil) KNil KNil)));
  (* machine.go:3833 stCase165 *) ((LCase 165), (KIf (CByte OEq 32) (KGoto (LTr 39) KNil) KNil (KIf (CAnd (CByte OGe 33) (CByte OLe 126)) (KGoto (LSt 166) KNil) KNil (KGoto (LTr 37) KNil))));
  (* machine.go:3841 st166 *) ((LSt 166), (KInc (KIf CPe (KGoto (LEofN 166) KNil) KNil KNil)));
  (* machine.go:3845 stCase166 *) ((LCase 166), (KIf (CByte OEq 32) (KGoto (LTr 39) KNil) KNil (KIf (CAnd (CByte OGe 33) (CByte OLe 126)) (KGoto (LSt 167) KNil) KNil (KGoto (LTr 37) KNil))));
  (* machine.go:3853 st167 *) ((LSt 167), (KInc (KIf CPe (KGoto (LEofN 167) KNil) KNil KNil)));
  (* machine.go:3857 stCase167 *) ((LCase 167), (KIf (CByte OEq 32) (KGoto (LTr 39) KNil) KNil (KIf (CAnd (CByte OGe 33) (CByte OLe 126)) (KGoto (LSt 168) KNil) KNil (KGoto (LTr 37) KNil))));
  (* machine.go:3865 st168 *) ((LSt 168), (KInc (KIf CPe (KGoto (LEofN 168) KNil) KNil KNil)));
  (* machine.go:3869 stCase168 *) ((LCase 168), (KIf (CByte OEq 32) (KGoto (LTr 39) KNil) KNil (KIf (CAnd (CByte OGe 33) (CByte OLe 126)) (KGoto (LSt 169) KNil) KNil (KGoto (LTr 37) KNil))));
  (* machine.go:3877 st169 *) ((LSt 169), (KInc (KIf CPe (KGoto (LEofN 169) KNil) KNil KNil)));
  (* machine.go:3881 stCase169 *) ((LCase 169), (KIf (CByte OEq 32) (KGoto (LTr 39) KNil) KNil (KIf (CAnd (CByte OGe 33) (CByte OLe 126)) (KGoto (LSt 170) KNil) KNil (KGoto (LTr 37) KNil))));
  (* machine.go:3889 st170 *) ((LSt 170), (KInc (KIf CPe (KGoto (LEofN 170) KNil) KNil KNil)));
  (* machine.go:3893 stCase170 *) ((LCase 170), (KIf (CByte OEq 32) (KGoto (LTr 39) KNil) KNil (KIf (CAnd (CByte OGe 33) (CByte OLe 126)) (KGoto (LSt 171) KNil) KNil (KGoto (LTr 37) KNil))));
  (* machine.go:3901 st171 *) ((LSt 171), (KInc (KIf CPe (KGoto (LEofN 171) KNil) KNil KNil)));
  (* machine.go:3905 stCase171 *) ((LCase 171), (KIf (CByte OEq 32) (KGoto (LTr 39) KNil) KNil (KIf (CAnd (CByte OGe 33) (CByte OLe 126)) (KGoto (LSt 172) KNil) KNil (KGoto (LTr 37) KNil))));
  (* machine.go:3913 st172 *) ((LSt 172), (KInc (KIf CPe (KGoto (LEofN 172) KNil) KNil KNil)));
  (* machine.go:3917 stCase172 *) ((LCase 172), (KIf (CByte OEq 32) (KGoto (LTr 39) KNil) KNil (KIf (CAnd (CByte OGe 33) (CByte OLe 126)) (KGoto (LSt 173) KNil) KNil (KGoto (LTr 37) KNil))));
  (* machine.go:3925 st173 *) ((LSt 173), (KInc (KIf CPe (KGoto (LEofN 173) KNil) KNil KNil)));
  (* machine.go:3929 stCase173 *) ((LCase 173), (KIf (CByte OEq 32) (KGoto (LTr 39) KNil) KNil (KIf (CAnd (CByte OGe 33) (CByte OLe 126)) (KGoto (LSt 174) KNil) KNil (KGoto (LTr 37) KNil))));
  (* machine.go:3937 st174 *) ((LSt 174), (KInc (KIf CPe (KGoto (LEofN 174) KNil) KNil KNil)));
  (* machine.go:3941 stCase174 *) ((LCase 174), (KIf (CByte OEq 32) (KGoto (LTr 39) KNil) KNil (KIf (CAnd (CByte OGe 33) (CByte OLe 126)) (KGoto (LSt 175) KNil) KNil (KGoto (LTr 37) KNil))));
  (* machine.go:3949 st175 *) ((LSt 175), (KInc (KIf CPe (KGoto (LEofN 175) KNil) KNil KNil)));
  (* machine.go:3953 stCase175 *) ((LCase 175), (KIf (CByte OEq 32) (KGoto (LTr 39) KNil) KNil (KIf (CAnd (CByte OGe 33) (CByte OLe 126)) (KGoto (LSt 176) KNil) KNil (KGoto (LTr 37) KNil))));
  (* machine.go:3961 st176 *) ((LSt 176), (KInc (KIf CPe (KGoto (LEofN 176) KNil) KNil KNil)));
  (* machine.go:3965 stCase176 *) ((LCase 176), (KIf (CByte OEq 32) (KGoto (LTr 39) KNil) KNil (KIf (CAnd (CByte OGe 33) (CByte OLe 126)) (KGoto (LSt 177) KNil) KNil (KGoto (LTr 37) KNil))));
  (* machine.go:3973 st177 *) ((LSt 177), (KInc (KIf CPe (KGoto (LEofN 177) KNil) KNil KNil)));
  (* machine.go:3977 stCase177 *) ((LCase 177), (KIf (CByte OEq 32) (KGoto (LTr 39) KNil) KNil (KIf (CAnd (CByte OGe 33) (CByte OLe 126)) (KGoto (LSt 178) KNil) KNil (KGoto (LTr 37) KNil))));
  (* machine.go:3985 st178 *) ((LSt 178), (KInc (KIf CPe (KGoto (LEofN 178) KNil) KNil KNil)));
  (* machine.go:3989 stCase178 *) ((LCase 178), (KIf (CByte OEq 32) (KGoto (LTr 39) KNil) KNil (KIf (CAnd (CByte OGe 33) (CByte OLe 126)) (KGoto (LSt 179) KNil) KNil (KGoto (LTr 37) KNil))));
  (* machine.go:3997 st179 *) ((LSt 179), (KInc (KIf CPe (KGoto (LEofN 179) KNil) KNil KNil)));
  (* machine.go:4001 stCase179 *) ((LCase 179), (KIf (CByte OEq 32) (KGoto (LTr 39) KNil) KNil (KIf (CAnd (CByte OGe 33) (CByte OLe 126)) (KGoto (LSt 180) KNil) KNil (KGoto (LTr 37) KNil))));
  (* machine.go:4009 st180 *) ((LSt 180), (KInc (KIf CPe (KGoto (LEofN 180) KNil) KNil KNil)));
  (* machine.go:4013 stCase180 *) ((LCase 180), (KIf (CByte OEq 32) (KGoto (LTr 39) KNil) KNil (KIf (CAnd (CByte OGe 33) (CByte OLe 126)) (KGoto (LSt 181) KNil) KNil (KGoto (LTr 37) KNil))));
  (* machine.go:4021 st181 *) ((LSt 181), (KInc (KIf CPe (KGoto (LEofN 181) KNil) KNil KNil)));
  (* machine.go:4025 stCase181 *) ((LCase 181), (KIf (CByte OEq 32) (KGoto (LTr 39) KNil) KNil (KIf (CAnd (CByte OGe 33) (CByte OLe 126)) (KGoto (LSt 182) KNil) KNil (KGoto (LTr 37) KNil))));
  (* machine.go:4033 st182 *) ((LSt 182), (KInc (KIf CPe (KGoto (LEofN 182) KNil) KNil KNil)));
  (* machine.go:4037 stCase182 *) ((LCase 182), (KIf (CByte OEq 32) (KGoto (LTr 39) KNil) KNil (KIf (CAnd (CByte OGe 33) (CByte OLe 126)) (KGoto (LSt 183) KNil) KNil (KGoto (LTr 37) KNil))));
  (* machine.go:4045 st183 *) ((LSt 183), (KInc (KIf CPe (KGoto (LEofN 183) KNil) KNil KNil)));
  (* machine.go:4049 stCase183 *) ((LCase 183), (KIf (CByte OEq 32) (KGoto (LTr 39) KNil) KNil (KIf (CAnd (CByte OGe 33) (CByte OLe 126)) (KGoto (LSt 184) KNil) KNil (KGoto (LTr 37) KNil))));
  (* machine.go:4057 st184 *) ((LSt 184), (KInc (KIf CPe (KGoto (LEofN 184) KNil) KNil KNil)));
  (* machine.go:4061 stCase184 *) ((LCase 184), (KIf (CByte OEq 32) (KGoto (LTr 39) KNil) KNil (KIf (CAnd (CByte OGe 33) (CByte OLe 126)) (KGoto (LSt 185) KNil) KNil (KGoto (LTr 37) KNil))));
  (* machine.go:4069 st185 *) ((LSt 185), (KInc (KIf CPe (KGoto (LEofN 185) KNil) KNil KNil)));
  (* machine.go:4073 stCase185 *) ((LCase 185), (KIf (CByte OEq 32) (KGoto (LTr 39) KNil) KNil (KIf (CAnd (CByte OGe 33) (CByte OLe 126)) (KGoto (LSt 186) KNil) KNil (KGoto (LTr 37) KNil))));
  (* machine.go:4081 st186 *) ((LSt 186), (KInc (KIf CPe (KGoto (LEofN 186) KNil) KNil KNil)));
  (* machine.go:4085 stCase186 *) ((LCase 186), (KIf (CByte OEq 32) (KGoto (LTr 39) KNil) KNil (KIf (CAnd (CByte OGe 33) (CByte OLe 126)) (KGoto (LSt 187) KNil) KNil (KGoto (LTr 37) KNil))));
  (* machine.go:4093 st187 *) ((LSt 187), (KInc (KIf CPe (KGoto (LEofN 187) KNil) KNil KNil)));
  (* machine.go:4097 stCase187 *) ((LCase 187), (KIf (CByte OEq 32) (KGoto (LTr 39) KNil) KNil (KIf (CAnd (CByte OGe 33) (CByte OLe 126)) (KGoto (LSt 188) KNil) KNil (KGoto (LTr 37) KNil))));
  (* machine.go:4105 st188 *) ((LSt 188), (KInc (KIf CPe (KGoto (LEofN 188) KNil) KNil KNil)));
  (* machine.go:4109 stCase188 *) ((LCase 188), (KIf (CByte OEq 32) (KGoto (LTr 39) KNil) KNil (KIf (CAnd (CByte OGe 33) (CByte OLe 126)) (KGoto (LSt 189) KNil) KNil (KGoto (LTr 37) KNil))))
].

(* /repo/rfc3164/machine.go *)
Definition prog3164_8 : list (label * code act cnd) := [
  (* machine.go:4117 st189 *) ((LSt 189), (KInc (KIf CPe (KGoto (LEofN 189) KNil) KNil KNil)));
  (* machine.go:4121 stCase189 *) ((LCase 189), (KIf (CByte OEq 32) (KGoto (LTr 39) KNil) KNil (KIf (CAnd (CByte OGe 33) (CByte OLe 126)) (KGoto (LSt 190) KNil) KNil (KGoto (LTr 37) KNil))));
  (* machine.go:4129 st190 *) ((LSt 190), (KInc (KIf CPe (KGoto (LEofN 190) KNil) KNil KNil)));
  (* machine.go:4133 stCase190 *) ((LCase 190), (KIf (CByte OEq 32) (KGoto (LTr 39) KNil) KNil (KIf (CAnd (CByte OGe 33) (CByte OLe 126)) (KGoto (LSt 191) KNil) KNil (KGoto (LTr 37) KNil))));
  (* machine.go:4141 st191 *) ((LSt 191), (KInc (KIf CPe (KGoto (LEofN 191) KNil) KNil KNil)));
  (* machine.go:4145 stCase191 *) ((LCase 191), (KIf (CByte OEq 32) (KGoto (LTr 39) KNil) KNil (KIf (CAnd (CByte OGe 33) (CByte OLe 126)) (KGoto (LSt 192) KNil) KNil (KGoto (LTr 37) KNil))));
  (* machine.go:4153 st192 *) ((LSt 192), (KInc (KIf CPe (KGoto (LEofN 192) KNil) KNil KNil)));
  (* machine.go:4157 stCase192 *) ((LCase 192), (KIf (CByte OEq 32) (KGoto (LTr 39) KNil) KNil (KIf (CAnd (CByte OGe 33) (CByte OLe 126)) (KGoto (LSt 193) KNil) KNil (KGoto (LTr 37) KNil))));
  (* machine.go:4165 st193 *) ((LSt 193), (KInc (KIf CPe (KGoto (LEofN 193) KNil) KNil KNil)));
  (* machine.go:4169 stCase193 *) ((LCase 193), (KIf (CByte OEq 32) (KGoto (LTr 39) KNil) KNil (KIf (CAnd (CByte OGe 33) (CByte OLe 126)) (KGoto (LSt 194) KNil) KNil (KGoto (LTr 37) KNil))));
  (* machine.go:4177 st194 *) ((LSt 194), (KInc (KIf CPe (KGoto (LEofN 194) KNil) KNil KNil)));
  (* machine.go:4181 stCase194 *) ((LCase 194), (KIf (CByte OEq 32) (KGoto (LTr 39) KNil) KNil (KIf (CAnd (CByte OGe 33) (CByte OLe 126)) (KGoto (LSt 195) KNil) KNil (KGoto (LTr 37) KNil))));
  (* machine.go:4189 st195 *) ((LSt 195), (KInc (KIf CPe (KGoto (LEofN 195) KNil) KNil KNil)));
  (* machine.go:4193 stCase195 *) ((LCase 195), (KIf (CByte OEq 32) (KGoto (LTr 39) KNil) KNil (KIf (CAnd (CByte OGe 33) (CByte OLe 126)) (KGoto (LSt 196) KNil) KNil (KGoto (LTr 37) KNil))));
  (* machine.go:4201 st196 *) ((LSt 196), (KInc (KIf CPe (KGoto (LEofN 196) KNil) KNil KNil)));
  (* machine.go:4205 stCase196 *) ((LCase 196), (KIf (CByte OEq 32) (KGoto (LTr 39) KNil) KNil (KIf (CAnd (CByte OGe 33) (CByte OLe 126)) (KGoto (LSt 197) KNil) KNil (KGoto (LTr 37) KNil))));
  (* machine.go:4213 st197 *) ((LSt 197), (KInc (KIf CPe (KGoto (LEofN 197) KNil) KNil KNil)));
  (* machine.go:4217 stCase197 *) ((LCase 197), (KIf (CByte OEq 32) (KGoto (LTr 39) KNil) KNil (KIf (CAnd (CByte OGe 33) (CByte OLe 126)) (KGoto (LSt 198) KNil) KNil (KGoto (LTr 37) KNil))));
  (* machine.go:4225 st198 *) ((LSt 198), (KInc (KIf CPe (KGoto (LEofN 198) KNil) KNil KNil)));
  (* machine.go:4229 stCase198 *) ((LCase 198), (KIf (CByte OEq 32) (KGoto (LTr 39) KNil) KNil (KIf (CAnd (CByte OGe 33) (CByte OLe 126)) (KGoto (LSt 199) KNil) KNil (KGoto (LTr 37) KNil))));
  (* machine.go:4237 st199 *) ((LSt 199), (KInc (KIf CPe (KGoto (LEofN 199) KNil) KNil KNil)));
  (* machine.go:4241 stCase199 *) ((LCase 199), (KIf (CByte OEq 32) (KGoto (LTr 39) KNil) KNil (KIf (CAnd (CByte OGe 33) (CByte OLe 126)) (KGoto (LSt 200) KNil) KNil (KGoto (LTr 37) KNil))));
  (* machine.go:4249 st200 *) ((LSt 200), (KInc (KIf CPe (KGoto (LEofN 200) KNil) KNil KNil)));
  (* machine.go:4253 stCase200 *) ((LCase 200), (KIf (CByte OEq 32) (KGoto (LTr 39) KNil) KNil (KIf (CAnd (CByte OGe 33) (CByte OLe 126)) (KGoto (LSt 201) KNil) KNil (KGoto (LTr 37) KNil))));
  (* machine.go:4261 st201 *) ((LSt 201), (KInc (KIf CPe (KGoto (LEofN 201) KNil) KNil KNil)));
  (* machine.go:4265 stCase201 *) ((LCase 201), (KIf (CByte OEq 32) (KGoto (LTr 39) KNil) KNil (KIf (CAnd (CByte OGe 33) (CByte OLe 126)) (KGoto (LSt 202) KNil) KNil (KGoto (LTr 37) KNil))));
  (* machine.go:4273 st202 *) ((LSt 202), (KInc (KIf CPe (KGoto (LEofN 202) KNil) KNil KNil)));
  (* machine.go:4277 stCase202 *) ((LCase 202), (KIf (CByte OEq 32) (KGoto (LTr 39) KNil) KNil (KIf (CAnd (CByte OGe 33) (CByte OLe 126)) (KGoto (LSt 203) KNil) KNil (KGoto (LTr 37) KNil))));
  (* machine.go:4285 st203 *) ((LSt 203), (KInc (KIf CPe (KGoto (LEofN 203) KNil) KNil KNil)));
  (* machine.go:4289 stCase203 *) ((LCase 203), (KIf (CByte OEq 32) (KGoto (LTr 39) KNil) KNil (KIf (CAnd (CByte OGe 33) (CByte OLe 126)) (KGoto (LSt 204) KNil) KNil (KGoto (LTr 37) KNil))));
  (* machine.go:4297 st204 *) ((LSt 204), (KInc (KIf CPe (KGoto (LEofN 204) KNil) KNil KNil)));
  (* machine.go:4301 stCase204 *) ((LCase 204), (KIf (CByte OEq 32) (KGoto (LTr 39) KNil) KNil (KIf (CAnd (CByte OGe 33) (CByte OLe 126)) (KGoto (LSt 205) KNil) KNil (KGoto (LTr 37) KNil))));
  (* machine.go:4309 st205 *) ((LSt 205), (KInc (KIf CPe (KGoto (LEofN 205) KNil) KNil KNil)));
  (* machine.go:4313 stCase205 *) ((LCase 205), (KIf (CByte OEq 32) (KGoto (LTr 39) KNil) KNil (KIf (CAnd (CByte OGe 33) (CByte OLe 126)) (KGoto (LSt 206) KNil) KNil (KGoto (LTr 37) KNil))));
  (* machine.go:4321 st206 *) ((LSt 206), (KInc (KIf CPe (KGoto (LEofN 206) KNil) KNil KNil)));
  (* machine.go:4325 stCase206 *) ((LCase 206), (KIf (CByte OEq 32) (KGoto (LTr 39) KNil) KNil (KIf (CAnd (CByte OGe 33) (CByte OLe 126)) (KGoto (LSt 207) KNil) KNil (KGoto (LTr 37) KNil))));
  (* machine.go:4333 st207 *) ((LSt 207), (KInc (KIf CPe (KGoto (LEofN 207) KNil) KNil KNil)));
  (* machine.go:4337 stCase207 *) ((LCase 207), (KIf (CByte OEq 32) (KGoto (LTr 39) KNil) KNil (KIf (CAnd (CByte OGe 33) (CByte OLe 126)) (KGoto (LSt 208) KNil) KNil (KGoto (LTr 37) KNil))));
  (* machine.go:4345 st208 *) ((LSt 208), (KInc (KIf CPe (KGoto (LEofN 208) KNil) KNil KNil)));
  (* machine.go:4349 stCase208 *) ((LCase 208), (KIf (CByte OEq 32) (KGoto (LTr 39) KNil) KNil (KIf (CAnd (CByte OGe 33) (CByte OLe 126)) (KGoto (LSt 209) KNil) KNil (KGoto (LTr 37) KNil))));
  (* machine.go:4357 st209 *) ((LSt 209), (KInc (KIf CPe (KGoto (LEofN 209) KNil) KNil KNil)));
  (* machine.go:4361 stCase209 *) ((LCase 209), (KIf (CByte OEq 32) (KGoto (LTr 39) KNil) KNil (KIf (CAnd (CByte OGe 33) (CByte OLe 126)) (KGoto (LSt 210) KNil) KNil (KGoto (LTr 37) KNil))));
  (* machine.go:4369 st210 *) ((LSt 210), (KInc (KIf CPe (KGoto (LEofN 210) KNil) KNil KNil)));
  (* machine.go:4373 stCase210 *) ((LCase 210), (KIf (CByte OEq 32) (KGoto (LTr 39) KNil) KNil (KIf (CAnd (CByte OGe 33) (CByte OLe 126)) (KGoto (LSt 211) KNil) KNil (KGoto (LTr 37) KNil))));
  (* machine.go:4381 st211 *) ((LSt 211), (KInc (KIf CPe (KGoto (LEofN 211) KNil) KNil KNil)));
  (* machine.go:4385 stCase211 *) ((LCase 211), (KIf (CByte OEq 32) (KGoto (LTr 39) KNil) KNil (KIf (CAnd (CByte OGe 33) (CByte OLe 126)) (KGoto (LSt 212) KNil) KNil (KGoto (LTr 37) KNil))));
  (* machine.go:4393 st212 *) ((LSt 212), (KInc (KIf CPe (KGoto (LEofN 212) KNil) KNil KNil)));
  (* machine.go:4397 stCase212 *) ((LCase 212), (KIf (CByte OEq 32) (KGoto (LTr 39) KNil) KNil (KIf (CAnd (CByte OGe 33) (CByte OLe 126)) (KGoto (LSt 213) KNil) KNil (KGoto (LTr 37) KNil))));
  (* machine.go:4405 st213 *) ((LSt 213), (KInc (KIf CPe (KGoto (LEofN 213) KNil) KNil KNil)));
  (* machine.go:4409 stCase213 *) ((LCase 213), (KIf (CByte OEq 32) (KGoto (LTr 39) KNil) KNil (KIf (CAnd (CByte OGe 33) (CByte OLe 126)) (KGoto (LSt 214) KNil) KNil (KGoto (LTr 37) KNil))));
  (* machine.go:4417 st214 *) ((LSt 214), (KInc (KIf CPe (KGoto (LEofN 214) KNil) KNil KNil)));
  (* machine.go:4421 stCase214 *) ((LCase 214), (KIf (CByte OEq 32) (KGoto (LTr 39) KNil) KNil (KIf (CAnd (CByte OGe 33) (CByte OLe 126)) (KGoto (LSt 215) KNil) KNil (KGoto (LTr 37) KNil))));
  (* machine.go:4429 st215 *) ((LSt 215), (KInc (KIf CPe (KGoto (LEofN 215) KNil) KNil KNil)));
  (* machine.go:4433 stCase215 *) ((LCase 215), (KIf (CByte OEq 32) (KGoto (LTr 39) KNil) KNil (KIf (CAnd (CByte OGe 33) (CByte OLe 126)) (KGoto (LSt 216) KNil) KNil (KGoto (LTr 37) KNil))));
  (* machine.go:4441 st216 *) ((LSt 216), (KInc (KIf CPe (KGoto (LEofN 216) KNil) KNil KNil)));
  (* machine.go:4445 stCase216 *) ((LCase 216), (KIf (CByte OEq 32) (KGoto (LTr 39) KNil) KNil (KIf (CAnd (CByte OGe 33) (CByte OLe 126)) (KGoto (LSt 217) KNil) KNil (KGoto (LTr 37) KNil))));
  (* machine.go:4453 st217 *) ((LSt 217), (KInc (KIf CPe (KGoto (LEofN 217) KNil) KNil KNil)));
  (* machine.go:4457 stCase217 *) ((LCase 217), (KIf (CByte OEq 32) (KGoto (LTr 39) KNil) KNil (KIf (CAnd (CByte OGe 33) (CByte OLe 126)) (KGoto (LSt 218) KNil) KNil (KGoto (LTr 37) KNil))));
  (* machine.go:4465 st218 *) ((LSt 218), (KInc (KIf CPe (KGoto (LEofN 218) KNil) KNil KNil)));
  (* machine.go:4469 stCase218 *) ((LCase 218), (KIf (CByte OEq 32) (KGoto (LTr 39) KNil) KNil (KIf (CAnd (CByte OGe 33) (CByte OLe 126)) (KGoto (LSt 219) KNil) KNil (KGoto (LTr 37) KNil))))
].

(* /repo/rfc3164/machine.go *)
Definition prog3164_9 : list (label * code act cnd) := [
  (* machine.go:4477 st219 *) ((LSt 219), (KInc (KIf CPe (KGoto (LEofN 219) KNil) KNil KNil)));
  (* machine.go:4481 stCase219 *) ((LCase 219), (KIf (CByte OEq 32) (KGoto (LTr 39) KNil) KNil (KIf (CAnd (CByte OGe 33) (CByte OLe 126)) (KGoto (LSt 220) KNil) KNil (KGoto (LTr 37) KNil))));
  (* machine.go:4489 st220 *) ((LSt 220), (KInc (KIf CPe (KGoto (LEofN 220) KNil) KNil KNil)));
  (* machine.go:4493 stCase220 *) ((LCase 220), (KIf (CByte OEq 32) (KGoto (LTr 39) KNil) KNil (KIf (CAnd (CByte OGe 33) (CByte OLe 126)) (KGoto (LSt 221) KNil) KNil (KGoto (LTr 37) KNil))));
  (* machine.go:4501 st221 *) ((LSt 221), (KInc (KIf CPe (KGoto (LEofN 221) KNil) KNil KNil)));
  (* machine.go:4505 stCase221 *) ((LCase 221), (KIf (CByte OEq 32) (KGoto (LTr 39) KNil) KNil (KIf (CAnd (CByte OGe 33) (CByte OLe 126)) (KGoto (LSt 222) KNil) KNil (KGoto (LTr 37) KNil))));
  (* machine.go:4513 st222 *) ((LSt 222), (KInc (KIf CPe (KGoto (LEofN 222) KNil) KNil KNil)));
  (* machine.go:4517 stCase222 *) ((LCase 222), (KIf (CByte OEq 32) (KGoto (LTr 39) KNil) KNil (KIf (CAnd (CByte OGe 33) (CByte OLe 126)) (KGoto (LSt 223) KNil) KNil (KGoto (LTr 37) KNil))));
  (* machine.go:4525 st223 *) ((LSt 223), (KInc (KIf CPe (KGoto (LEofN 223) KNil) KNil KNil)));
  (* machine.go:4529 stCase223 *) ((LCase 223), (KIf (CByte OEq 32) (KGoto (LTr 39) KNil) KNil (KIf (CAnd (CByte OGe 33) (CByte OLe 126)) (KGoto (LSt 224) KNil) KNil (KGoto (LTr 37) KNil))));
  (* machine.go:4537 st224 *) ((LSt 224), (KInc (KIf CPe (KGoto (LEofN 224) KNil) KNil KNil)));
  (* machine.go:4541 stCase224 *) ((LCase 224), (KIf (CByte OEq 32) (KGoto (LTr 39) KNil) KNil (KIf (CAnd (CByte OGe 33) (CByte OLe 126)) (KGoto (LSt 225) KNil) KNil (KGoto (LTr 37) KNil))));
  (* machine.go:4549 st225 *) ((LSt 225), (KInc (KIf CPe (KGoto (LEofN 225) KNil) KNil KNil)));
  (* machine.go:4553 stCase225 *) ((LCase 225), (KIf (CByte OEq 32) (KGoto (LTr 39) KNil) KNil (KIf (CAnd (CByte OGe 33) (CByte OLe 126)) (KGoto (LSt 226) KNil) KNil (KGoto (LTr 37) KNil))));
  (* machine.go:4561 st226 *) ((LSt 226), (KInc (KIf CPe (KGoto (LEofN 226) KNil) KNil KNil)));
  (* machine.go:4565 stCase226 *) ((LCase 226), (KIf (CByte OEq 32) (KGoto (LTr 39) KNil) KNil (KIf (CAnd (CByte OGe 33) (CByte OLe 126)) (KGoto (LSt 227) KNil) KNil (KGoto (LTr 37) KNil))));
  (* machine.go:4573 st227 *) ((LSt 227), (KInc (KIf CPe (KGoto (LEofN 227) KNil) KNil KNil)));
  (* machine.go:4577 stCase227 *) ((LCase 227), (KIf (CByte OEq 32) (KGoto (LTr 39) KNil) KNil (KIf (CAnd (CByte OGe 33) (CByte OLe 126)) (KGoto (LSt 228) KNil) KNil (KGoto (LTr 37) KNil))));
  (* machine.go:4585 st228 *) ((LSt 228), (KInc (KIf CPe (KGoto (LEofN 228) KNil) KNil KNil)));
  (* machine.go:4589 stCase228 *) ((LCase 228), (KIf (CByte OEq 32) (KGoto (LTr 39) KNil) KNil (KIf (CAnd (CByte OGe 33) (CByte OLe 126)) (KGoto (LSt 229) KNil) KNil (KGoto (LTr 37) KNil))));
  (* machine.go:4597 st229 *) ((LSt 229), (KInc (KIf CPe (KGoto (LEofN 229) KNil) KNil KNil)));
  (* machine.go:4601 stCase229 *) ((LCase 229), (KIf (CByte OEq 32) (KGoto (LTr 39) KNil) KNil (KIf (CAnd (CByte OGe 33) (CByte OLe 126)) (KGoto (LSt 230) KNil) KNil (KGoto (LTr 37) KNil))));
  (* machine.go:4609 st230 *) ((LSt 230), (KInc (KIf CPe (KGoto (LEofN 230) KNil) KNil KNil)));
  (* machine.go:4613 stCase230 *) ((LCase 230), (KIf (CByte OEq 32) (KGoto (LTr 39) KNil) KNil (KIf (CAnd (CByte OGe 33) (CByte OLe 126)) (KGoto (LSt 231) KNil) KNil (KGoto (LTr 37) KNil))));
  (* machine.go:4621 st231 *) ((LSt 231), (KInc (KIf CPe (KGoto (LEofN 231) KNil) KNil KNil)));
  (* machine.go:4625 stCase231 *) ((LCase 231), (KIf (CByte OEq 32) (KGoto (LTr 39) KNil) KNil (KIf (CAnd (CByte OGe 33) (CByte OLe 126)) (KGoto (LSt 232) KNil) KNil (KGoto (LTr 37) KNil))));
  (* machine.go:4633 st232 *) ((LSt 232), (KInc (KIf CPe (KGoto (LEofN 232) KNil) KNil KNil)));
  (* machine.go:4637 stCase232 *) ((LCase 232), (KIf (CByte OEq 32) (KGoto (LTr 39) KNil) KNil (KIf (CAnd (CByte OGe 33) (CByte OLe 126)) (KGoto (LSt 233) KNil) KNil (KGoto (LTr 37) KNil))));
  (* machine.go:4645 st233 *) ((LSt 233), (KInc (KIf CPe (KGoto (LEofN 233) KNil) KNil KNil)));
  (* machine.go:4649 stCase233 *) ((LCase 233), (KIf (CByte OEq 32) (KGoto (LTr 39) KNil) KNil (KIf (CAnd (CByte OGe 33) (CByte OLe 126)) (KGoto (LSt 234) KNil) KNil (KGoto (LTr 37) KNil))));
  (* machine.go:4657 st234 *) ((LSt 234), (KInc (KIf CPe (KGoto (LEofN 234) KNil) KNil KNil)));
  (* machine.go:4661 stCase234 *) ((LCase 234), (KIf (CByte OEq 32) (KGoto (LTr 39) KNil) KNil (KIf (CAnd (CByte OGe 33) (CByte OLe 126)) (KGoto (LSt 235) KNil) KNil (KGoto (LTr 37) KNil))));
  (* machine.go:4669 st235 *) ((LSt 235), (KInc (KIf CPe (KGoto (LEofN 235) KNil) KNil KNil)));
  (* machine.go:4673 stCase235 *) ((LCase 235), (KIf (CByte OEq 32) (KGoto (LTr 39) KNil) KNil (KIf (CAnd (CByte OGe 33) (CByte OLe 126)) (KGoto (LSt 236) KNil) KNil (KGoto (LTr 37) KNil))));
  (* machine.go:4681 st236 *) ((LSt 236), (KInc (KIf CPe (KGoto (LEofN 236) KNil) KNil KNil)));
  (* machine.go:4685 stCase236 *) ((LCase 236), (KIf (CByte OEq 32) (KGoto (LTr 39) KNil) KNil (KIf (CAnd (CByte OGe 33) (CByte OLe 126)) (KGoto (LSt 237) KNil) KNil (KGoto (LTr 37) KNil))));
  (* machine.go:4693 st237 *) ((LSt 237), (KInc (KIf CPe (KGoto (LEofN 237) KNil) KNil KNil)));
  (* machine.go:4697 stCase237 *) ((LCase 237), (KIf (CByte OEq 32) (KGoto (LTr 39) KNil) KNil (KIf (CAnd (CByte OGe 33) (CByte OLe 126)) (KGoto (LSt 238) KNil) KNil (KGoto (LTr 37) KNil))));
  (* machine.go:4705 st238 *) ((LSt 238), (KInc (KIf CPe (KGoto (LEofN 238) KNil) KNil KNil)));
  (* machine.go:4709 stCase238 *) ((LCase 238), (KIf (CByte OEq 32) (KGoto (LTr 39) KNil) KNil (KIf (CAnd (CByte OGe 33) (CByte OLe 126)) (KGoto (LSt 239) KNil) KNil (KGoto (LTr 37) KNil))));
  (* machine.go:4717 st239 *) ((LSt 239), (KInc (KIf CPe (KGoto (LEofN 239) KNil) KNil KNil)));
  (* machine.go:4721 stCase239 *) ((LCase 239), (KIf (CByte OEq 32) (KGoto (LTr 39) KNil) KNil (KIf (CAnd (CByte OGe 33) (CByte OLe 126)) (KGoto (LSt 240) KNil) KNil (KGoto (LTr 37) KNil))));
  (* machine.go:4729 st240 *) ((LSt 240), (KInc (KIf CPe (KGoto (LEofN 240) KNil) KNil KNil)));
  (* machine.go:4733 stCase240 *) ((LCase 240), (KIf (CByte OEq 32) (KGoto (LTr 39) KNil) KNil (KIf (CAnd (CByte OGe 33) (CByte OLe 126)) (KGoto (LSt 241) KNil) KNil (KGoto (LTr 37) KNil))));
  (* machine.go:4741 st241 *) ((LSt 241), (KInc (KIf CPe (KGoto (LEofN 241) KNil) KNil KNil)));
  (* machine.go:4745 stCase241 *) ((LCase 241), (KIf (CByte OEq 32) (KGoto (LTr 39) KNil) KNil (KIf (CAnd (CByte OGe 33) (CByte OLe 126)) (KGoto (LSt 242) KNil) KNil (KGoto (LTr 37) KNil))));
  (* machine.go:4753 st242 *) ((LSt 242), (KInc (KIf CPe (KGoto (LEofN 242) KNil) KNil KNil)));
  (* machine.go:4757 stCase242 *) ((LCase 242), (KIf (CByte OEq 32) (KGoto (LTr 39) KNil) KNil (KIf (CAnd (CByte OGe 33) (CByte OLe 126)) (KGoto (LSt 243) KNil) KNil (KGoto (LTr 37) KNil))));
  (* machine.go:4765 st243 *) ((LSt 243), (KInc (KIf CPe (KGoto (LEofN 243) KNil) KNil KNil)));
  (* machine.go:4769 stCase243 *) ((LCase 243), (KIf (CByte OEq 32) (KGoto (LTr 39) KNil) KNil (KIf (CAnd (CByte OGe 33) (CByte OLe 126)) (KGoto (LSt 244) KNil) KNil (KGoto (LTr 37) KNil))));
  (* machine.go:4777 st244 *) ((LSt 244), (KInc (KIf CPe (KGoto (LEofN 244) KNil) KNil KNil)));
  (* machine.go:4781 stCase244 *) ((LCase 244), (KIf (CByte OEq 32) (KGoto (LTr 39) KNil) KNil (KIf (CAnd (CByte OGe 33) (CByte OLe 126)) (KGoto (LSt 245) KNil) KNil (KGoto (LTr 37) KNil))));
  (* machine.go:4789 st245 *) ((LSt 245), (KInc (KIf CPe (KGoto (LEofN 245) KNil) KNil KNil)));
  (* machine.go:4793 stCase245 *) ((LCase 245), (KIf (CByte OEq 32) (KGoto (LTr 39) KNil) KNil (KIf (CAnd (CByte OGe 33) (CByte OLe 126)) (KGoto (LSt 246) KNil) KNil (KGoto (LTr 37) KNil))));
  (* machine.go:4801 st246 *) ((LSt 246), (KInc (KIf CPe (KGoto (LEofN 246) KNil) KNil KNil)));
  (* machine.go:4805 stCase246 *) ((LCase 246), (KIf (CByte OEq 32) (KGoto (LTr 39) KNil) KNil (KIf (CAnd (CByte OGe 33) (CByte OLe 126)) (KGoto (LSt 247) KNil) KNil (KGoto (LTr 37) KNil))));
  (* machine.go:4813 st247 *) ((LSt 247), (KInc (KIf CPe (KGoto (LEofN 247) KNil) KNil KNil)));
  (* machine.go:4817 stCase247 *) ((LCase 247), (KIf (CByte OEq 32) (KGoto (LTr 39) KNil) KNil (KIf (CAnd (CByte OGe 33) (CByte OLe 126)) (KGoto (LSt 248) KNil) KNil (KGoto (LTr 37) KNil))));
  (* machine.go:4825 st248 *) ((LSt 248), (KInc (KIf CPe (KGoto (LEofN 248) KNil) KNil KNil)));
  (* machine.go:4829 stCase248 *) ((LCase 248), (KIf (CByte OEq 32) (KGoto (LTr 39) KNil) KNil (KIf (CAnd (CByte OGe 33) (CByte OLe 126)) (KGoto (LSt 249) KNil) KNil (KGoto (LTr 37) KNil))))
].

(* /repo/rfc3164/machine.go *)
Definition prog3164_10 : list (label * code act cnd) := [
  (* machine.go:4837 st249 *) ((LSt 249), (KInc (KIf CPe (KGoto (LEofN 249) KNil) KNil KNil)));
  (* machine.go:4841 stCase249 *) ((LCase 249), (KIf (CByte OEq 32) (KGoto (LTr 39) KNil) KNil (KIf (CAnd (CByte OGe 33) (CByte OLe 126)) (KGoto (LSt 250) KNil) KNil (KGoto (LTr 37) KNil))));
  (* machine.go:4849 st250 *) ((LSt 250), (KInc (KIf CPe (KGoto (LEofN 250) KNil) KNil KNil)));
  (* machine.go:4853 stCase250 *) ((LCase 250), (KIf (CByte OEq 32) (KGoto (LTr 39) KNil) KNil (KIf (CAnd (CByte OGe 33) (CByte OLe 126)) (KGoto (LSt 251) KNil) KNil (KGoto (LTr 37) KNil))));
  (* machine.go:4861 st251 *) ((LSt 251), (KInc (KIf CPe (KGoto (LEofN 251) KNil) KNil KNil)));
  (* machine.go:4865 stCase251 *) ((LCase 251), (KIf (CByte OEq 32) (KGoto (LTr 39) KNil) KNil (KIf (CAnd (CByte OGe 33) (CByte OLe 126)) (KGoto (LSt 252) KNil) KNil (KGoto (LTr 37) KNil))));
  (* machine.go:4873 st252 *) ((LSt 252), (KInc (KIf CPe (KGoto (LEofN 252) KNil) KNil KNil)));
  (* machine.go:4877 stCase252 *) ((LCase 252), (KIf (CByte OEq 32) (KGoto (LTr 39) KNil) KNil (KIf (CAnd (CByte OGe 33) (CByte OLe 126)) (KGoto (LSt 253) KNil) KNil (KGoto (LTr 37) KNil))));
  (* machine.go:4885 st253 *) ((LSt 253), (KInc (KIf CPe (KGoto (LEofN 253) KNil) KNil KNil)));
  (* machine.go:4889 stCase253 *) ((LCase 253), (KIf (CByte OEq 32) (KGoto (LTr 39) KNil) KNil (KIf (CAnd (CByte OGe 33) (CByte OLe 126)) (KGoto (LSt 254) KNil) KNil (KGoto (LTr 37) KNil))));
  (* machine.go:4897 st254 *) ((LSt 254), (KInc (KIf CPe (KGoto (LEofN 254) KNil) KNil KNil)));
  (* machine.go:4901 stCase254 *) ((LCase 254), (KIf (CByte OEq 32) (KGoto (LTr 39) KNil) KNil (KIf (CAnd (CByte OGe 33) (CByte OLe 126)) (KGoto (LSt 255) KNil) KNil (KGoto (LTr 37) KNil))));
  (* machine.go:4909 st255 *) ((LSt 255), (KInc (KIf CPe (KGoto (LEofN 255) KNil) KNil KNil)));
  (* machine.go:4913 stCase255 *) ((LCase 255), (KIf (CByte OEq 32) (KGoto (LTr 39) KNil) KNil (KIf (CAnd (CByte OGe 33) (CByte OLe 126)) (KGoto (LSt 256) KNil) KNil (KGoto (LTr 37) KNil))));
  (* machine.go:4921 st256 *) ((LSt 256), (KInc (KIf CPe (KGoto (LEofN 256) KNil) KNil KNil)));
  (* machine.go:4925 stCase256 *) ((LCase 256), (KIf (CByte OEq 32) (KGoto (LTr 39) KNil) KNil (KIf (CAnd (CByte OGe 33) (CByte OLe 126)) (KGoto (LSt 257) KNil) KNil (KGoto (LTr 37) KNil))));
  (* machine.go:4933 st257 *) ((LSt 257), (KInc (KIf CPe (KGoto (LEofN 257) KNil) KNil KNil)));
  (* machine.go:4937 stCase257 *) ((LCase 257), (KIf (CByte OEq 32) (KGoto (LTr 39) KNil) KNil (KIf (CAnd (CByte OGe 33) (CByte OLe 126)) (KGoto (LSt 258) KNil) KNil (KGoto (LTr 37) KNil))));
  (* machine.go:4945 st258 *) ((LSt 258), (KInc (KIf CPe (KGoto (LEofN 258) KNil) KNil KNil)));
  (* machine.go:4949 stCase258 *) ((LCase 258), (KIf (CByte OEq 32) (KGoto (LTr 39) KNil) KNil (KIf (CAnd (CByte OGe 33) (CByte OLe 126)) (KGoto (LSt 259) KNil) KNil (KGoto (LTr 37) KNil))));
  (* machine.go:4957 st259 *) ((LSt 259), (KInc (KIf CPe (KGoto (LEofN 259) KNil) KNil KNil)));
  (* machine.go:4961 stCase259 *) ((LCase 259), (KIf (CByte OEq 32) (KGoto (LTr 39) KNil) KNil (KIf (CAnd (CByte OGe 33) (CByte OLe 126)) (KGoto (LSt 260) KNil) KNil (KGoto (LTr 37) KNil))));
  (* machine.go:4969 st260 *) ((LSt 260), (KInc (KIf CPe (KGoto (LEofN 260) KNil) KNil KNil)));
  (* machine.go:4973 stCase260 *) ((LCase 260), (KIf (CByte OEq 32) (KGoto (LTr 39) KNil) KNil (KIf (CAnd (CByte OGe 33) (CByte OLe 126)) (KGoto (LSt 261) KNil) KNil (KGoto (LTr 37) KNil))));
  (* machine.go:4981 st261 *) ((LSt 261), (KInc (KIf CPe (KGoto (LEofN 261) KNil) KNil KNil)));
  (* machine.go:4985 stCase261 *) ((LCase 261), (KIf (CByte OEq 32) (KGoto (LTr 39) KNil) KNil (KIf (CAnd (CByte OGe 33) (CByte OLe 126)) (KGoto (LSt 262) KNil) KNil (KGoto (LTr 37) KNil))));
  (* machine.go:4993 st262 *) ((LSt 262), (KInc (KIf CPe (KGoto (LEofN 262) KNil) KNil KNil)));
  (* machine.go:4997 stCase262 *) ((LCase 262), (KIf (CByte OEq 32) (KGoto (LTr 39) KNil) KNil (KIf (CAnd (CByte OGe 33) (CByte OLe 126)) (KGoto (LSt 263) KNil) KNil (KGoto (LTr 37) KNil))));
  (* machine.go:5005 st263 *) ((LSt 263), (KInc (KIf CPe (KGoto (LEofN 263) KNil) KNil KNil)));
  (* machine.go:5009 stCase263 *) ((LCase 263), (KIf (CByte OEq 32) (KGoto (LTr 39) KNil) KNil (KIf (CAnd (CByte OGe 33) (CByte OLe 126)) (KGoto (LSt 264) KNil) KNil (KGoto (LTr 37) KNil))));
  (* machine.go:5017 st264 *) ((LSt 264), (KInc (KIf CPe (KGoto (LEofN 264) KNil) KNil KNil)));
  (* machine.go:5021 stCase264 *) ((LCase 264), (KIf (CByte OEq 32) (KGoto (LTr 39) KNil) KNil (KIf (CAnd (CByte OGe 33) (CByte OLe 126)) (KGoto (LSt 265) KNil) KNil (KGoto (LTr 37) KNil))));
  (* machine.go:5029 st265 *) ((LSt 265), (KInc (KIf CPe (KGoto (LEofN 265) KNil) KNil KNil)));
  (* machine.go:5033 stCase265 *) ((LCase 265), (KIf (CByte OEq 32) (KGoto (LTr 39) KNil) KNil (KIf (CAnd (CByte OGe 33) (CByte OLe 126)) (KGoto (LSt 266) KNil) KNil (KGoto (LTr 37) KNil))));
  (* machine.go:5041 st266 *) ((LSt 266), (KInc (KIf CPe (KGoto (LEofN 266) KNil) KNil KNil)));
  (* machine.go:5045 stCase266 *) ((LCase 266), (KIf (CByte OEq 32) (KGoto (LTr 39) KNil) KNil (KIf (CAnd (CByte OGe 33) (CByte OLe 126)) (KGoto (LSt 267) KNil) KNil (KGoto (LTr 37) KNil))));
  (* machine.go:5053 st267 *) ((LSt 267), (KInc (KIf CPe (KGoto (LEofN 267) KNil) KNil KNil)));
  (* machine.go:5057 stCase267 *) ((LCase 267), (KIf (CByte OEq 32) (KGoto (LTr 39) KNil) KNil (KIf (CAnd (CByte OGe 33) (CByte OLe 126)) (KGoto (LSt 268) KNil) KNil (KGoto (LTr 37) KNil))));
  (* machine.go:5065 st268 *) ((LSt 268), (KInc (KIf CPe (KGoto (LEofN 268) KNil) KNil KNil)));
  (* machine.go:5069 stCase268 *) ((LCase 268), (KIf (CByte OEq 32) (KGoto (LTr 39) KNil) KNil (KIf (CAnd (CByte OGe 33) (CByte OLe 126)) (KGoto (LSt 269) KNil) KNil (KGoto (LTr 37) KNil))));
  (* machine.go:5077 st269 *) ((LSt 269), (KInc (KIf CPe (KGoto (LEofN 269) KNil) KNil KNil)));
  (* machine.go:5081 stCase269 *) ((LCase 269), (KIf (CByte OEq 32) (KGoto (LTr 39) KNil) KNil (KIf (CAnd (CByte OGe 33) (CByte OLe 126)) (KGoto (LSt 270) KNil) KNil (KGoto (LTr 37) KNil))));
  (* machine.go:5089 st270 *) ((LSt 270), (KInc (KIf CPe (KGoto (LEofN 270) KNil) KNil KNil)));
  (* machine.go:5093 stCase270 *) ((LCase 270), (KIf (CByte OEq 32) (KGoto (LTr 39) KNil) KNil (KIf (CAnd (CByte OGe 33) (CByte OLe 126)) (KGoto (LSt 271) KNil) KNil (KGoto (LTr 37) KNil))));
  (* machine.go:5101 st271 *) ((LSt 271), (KInc (KIf CPe (KGoto (LEofN 271) KNil) KNil KNil)));
  (* machine.go:5105 stCase271 *) ((LCase 271), (KIf (CByte OEq 32) (KGoto (LTr 39) KNil) KNil (KIf (CAnd (CByte OGe 33) (CByte OLe 126)) (KGoto (LSt 272) KNil) KNil (KGoto (LTr 37) KNil))));
  (* machine.go:5113 st272 *) ((LSt 272), (KInc (KIf CPe (KGoto (LEofN 272) KNil) KNil KNil)));
  (* machine.go:5117 stCase272 *) ((LCase 272), (KIf (CByte OEq 32) (KGoto (LTr 39) KNil) KNil (KIf (CAnd (CByte OGe 33) (CByte OLe 126)) (KGoto (LSt 273) KNil) KNil (KGoto (LTr 37) KNil))));
  (* machine.go:5125 st273 *) ((LSt 273), (KInc (KIf CPe (KGoto (LEofN 273) KNil) KNil KNil)));
  (* machine.go:5129 stCase273 *) ((LCase 273), (KIf (CByte OEq 32) (KGoto (LTr 39) KNil) KNil (KIf (CAnd (CByte OGe 33) (CByte OLe 126)) (KGoto (LSt 274) KNil) KNil (KGoto (LTr 37) KNil))));
  (* machine.go:5137 st274 *) ((LSt 274), (KInc (KIf CPe (KGoto (LEofN 274) KNil) KNil KNil)));
  (* machine.go:5141 stCase274 *) ((LCase 274), (KIf (CByte OEq 32) (KGoto (LTr 39) KNil) KNil (KIf (CAnd (CByte OGe 33) (CByte OLe 126)) (KGoto (LSt 275) KNil) KNil (KGoto (LTr 37) KNil))));
  (* machine.go:5149 st275 *) ((LSt 275), (KInc (KIf CPe (KGoto (LEofN 275) KNil) KNil KNil)));
  (* machine.go:5153 stCase275 *) ((LCase 275), (KIf (CByte OEq 32) (KGoto (LTr 39) KNil) KNil (KIf (CAnd (CByte OGe 33) (CByte OLe 126)) (KGoto (LSt 276) KNil) KNil (KGoto (LTr 37) KNil))));
  (* machine.go:5161 st276 *) ((LSt 276), (KInc (KIf CPe (KGoto (LEofN 276) KNil) KNil KNil)));
  (* machine.go:5165 stCase276 *) ((LCase 276), (KIf (CByte OEq 32) (KGoto (LTr 39) KNil) KNil (KIf (CAnd (CByte OGe 33) (CByte OLe 126)) (KGoto (LSt 277) KNil) KNil (KGoto (LTr 37) KNil))));
  (* machine.go:5173 st277 *) ((LSt 277), (KInc (KIf CPe (KGoto (LEofN 277) KNil) KNil KNil)));
  (* machine.go:5177 stCase277 *) ((LCase 277), (KIf (CByte OEq 32) (KGoto (LTr 39) KNil) KNil (KIf (CAnd (CByte OGe 33) (CByte OLe 126)) (KGoto (LSt 278) KNil) KNil (KGoto (LTr 37) KNil))));
  (* machine.go:5185 st278 *) ((LSt 278), (KInc (KIf CPe (KGoto (LEofN 278) KNil) KNil KNil)));
  (* machine.go:5189 stCase278 *) ((LCase 278), (KIf (CByte OEq 32) (KGoto (LTr 39) KNil) KNil (KIf (CAnd (CByte OGe 33) (CByte OLe 126)) (KGoto (LSt 279) KNil) KNil (KGoto (LTr 37) KNil))))
].

(* /repo/rfc3164/machine.go *)
Definition prog3164_11 : list (label * code act cnd) := [
  (* machine.go:5197 st279 *) ((LSt 279), (KInc (KIf CPe (KGoto (LEofN 279) KNil) KNil KNil)));
  (* machine.go:5201 stCase279 *) ((LCase 279), (KIf (CByte OEq 32) (KGoto (LTr 39) KNil) KNil (KIf (CAnd (CByte OGe 33) (CByte OLe 126)) (KGoto (LSt 280) KNil) KNil (KGoto (LTr 37) KNil))));
  (* machine.go:5209 st280 *) ((LSt 280), (KInc (KIf CPe (KGoto (LEofN 280) KNil) KNil KNil)));
  (* machine.go:5213 stCase280 *) ((LCase 280), (KIf (CByte OEq 32) (KGoto (LTr 39) KNil) KNil (KGoto (LTr 37) KNil)));
  (* machine.go:5218 st281 *) ((LSt 281), (KInc (KIf CPe (KGoto (LEofN 281) KNil) KNil KNil)));
  (* machine.go:5222 stCase281 *) ((LCase 281), (KIf (CAnd (CByte OGe 48) (CByte OLe 51)) (KGoto (LSt 13) KNil) KNil (KGoto (LTr 7) KNil)));
  (* machine.go:5227 st282 *) ((LSt 282), (KInc (KIf CPe (KGoto (LEofN 282) KNil) KNil KNil)));
  (* machine.go:5231 stCase282 *) ((LCase 282), (KIf (CAnd (CByte OGe 48) (CByte OLe 57)) (KGoto (LSt 10) KNil) KNil (KGoto (LTr 7) KNil)));
  (* machine.go:5236 st283 *) ((LSt 283), (KInc (KIf CPe (KGoto (LEofN 283) KNil) KNil KNil)));
  (* machine.go:5240 stCase283 *) ((LCase 283), (KIf (CAnd (CByte OGe 48) (CByte OLe 49)) (KGoto (LSt 10) KNil) KNil (KGoto (LTr 7) KNil)));
  (* machine.go:5245 st284 *) ((LSt 284), (KInc (KIf CPe (KGoto (LEofN 284) KNil) KNil KNil)));
  (* machine.go:5249 stCase284 *) ((LCase 284), (KIf (CByte OEq 103) (KGoto (LSt 7) KNil) KNil (KGoto (LTr 7) KNil)));
  (* machine.go:5254 tr9 *) ((LTr 9), (KAct APb (KGoto (LSt 285) KNil)));
  (* machine.go:5259 st285 *) ((LSt 285), (KInc (KIf CPe (KGoto (LEofN 285) KNil) KNil KNil)));
  (* machine.go:5263 stCase285 *) ((LCase 285), (KIf (CByte OEq 101) (KGoto (LSt 286) KNil) KNil (KGoto (LTr 7) KNil)));
  (* machine.go:5268 st286 *) ((LSt 286), (KInc (KIf CPe (KGoto (LEofN 286) KNil) KNil KNil)));
  (* machine.go:5272 stCase286 *) ((LCase 286), (KIf (CByte OEq 99) (KGoto (LSt 7) KNil) KNil (KGoto (LTr 7) KNil)));
  (* machine.go:5277 tr10 *) ((LTr 10), (KAct APb (KGoto (LSt 287) KNil)));
  (* machine.go:5282 st287 *) ((LSt 287), (KInc (KIf CPe (KGoto (LEofN 287) KNil) KNil KNil)));
  (* machine.go:5286 stCase287 *) ((LCase 287), (KIf (CByte OEq 101) (KGoto (LSt 288) KNil) KNil (KGoto (LTr 7) KNil)));
  (* machine.go:5291 st288 *) ((LSt 288), (KInc (KIf CPe (KGoto (LEofN 288) KNil) KNil KNil)));
  (* machine.go:5295 stCase288 *) ((LCase 288), (KIf (CByte OEq 98) (KGoto (LSt 7) KNil) KNil (KGoto (LTr 7) KNil)));
  (* machine.go:5300 tr11 *) ((LTr 11), (KAct APb (KGoto (LSt 289) KNil)));
  (* machine.go:5305 st289 *) ((LSt 289), (KInc (KIf CPe (KGoto (LEofN 289) KNil) KNil KNil)));
  (* machine.go:5309 stCase289 *) ((LCase 289), (KBlk (KIf (CByte OEq 97) (KGoto (LSt 290) KNil) (KIf (CByte OEq 117) (KGoto (LSt 291) KNil) KNil KNil) KNil) (KGoto (LTr 7) KNil)));
  (* machine.go:5317 st290 *) ((LSt 290), (KInc (KIf CPe (KGoto (LEofN 290) KNil) KNil KNil)));
  (* machine.go:5321 stCase290 *) ((LCase 290), (KIf (CByte OEq 110) (KGoto (LSt 7) KNil) KNil (KGoto (LTr 7) KNil)));
  (* machine.go:5326 st291 *) ((LSt 291), (KInc (KIf CPe (KGoto (LEofN 291) KNil) KNil KNil)));
  (* machine.go:5330 stCase291 *) ((LCase 291), (KBlk (KIf (CByte OEq 108) (KGoto (LSt 7) KNil) (KIf (CByte OEq 110) (KGoto (LSt 7) KNil) KNil KNil) KNil) (KGoto (LTr 7) KNil)));
  (* machine.go:5338 tr12 *) ((LTr 12), (KAct APb (KGoto (LSt 292) KNil)));
  (* machine.go:5343 st292 *) ((LSt 292), (KInc (KIf CPe (KGoto (LEofN 292) KNil) KNil KNil)));
  (* machine.go:5347 stCase292 *) ((LCase 292), (KIf (CByte OEq 97) (KGoto (LSt 293) KNil) KNil (KGoto (LTr 7) KNil)));
  (* machine.go:5352 st293 *) ((LSt 293), (KInc (KIf CPe (KGoto (LEofN 293) KNil) KNil KNil)));
  (* machine.go:5356 stCase293 *) ((LCase 293), (KBlk (KIf (CByte OEq 114) (KGoto (LSt 7) KNil) (KIf (CByte OEq 121) (KGoto (LSt 7) KNil) KNil KNil) KNil) (KGoto (LTr 7) KNil)));
  (* machine.go:5364 tr13 *) ((LTr 13), (KAct APb (KGoto (LSt 294) KNil)));
  (* machine.go:5369 st294 *) ((LSt 294), (KInc (KIf CPe (KGoto (LEofN 294) KNil) KNil KNil)));
  (* machine.go:5373 stCase294 *) ((LCase 294), (KIf (CByte OEq 111) (KGoto (LSt 295) KNil) KNil (KGoto (LTr 7) KNil)));
  (* machine.go:5378 st295 *) ((LSt 295), (KInc (KIf CPe (KGoto (LEofN 295) KNil) KNil KNil)));
  (* machine.go:5382 stCase295 *) ((LCase 295), (KIf (CByte OEq 118) (KGoto (LSt 7) KNil) KNil (KGoto (LTr 7) KNil)));
  (* machine.go:5387 tr14 *) ((LTr 14), (KAct APb (KGoto (LSt 296) KNil)));
  (* machine.go:5392 st296 *) ((LSt 296), (KInc (KIf CPe (KGoto (LEofN 296) KNil) KNil KNil)));
  (* machine.go:5396 stCase296 *) ((LCase 296), (KIf (CByte OEq 99) (KGoto (LSt 297) KNil) KNil (KGoto (LTr 7) KNil)));
  (* machine.go:5401 st297 *) ((LSt 297), (KInc (KIf CPe (KGoto (LEofN 297) KNil) KNil KNil)));
  (* machine.go:5405 stCase297 *) ((LCase 297), (KIf (CByte OEq 116) (KGoto (LSt 7) KNil) KNil (KGoto (LTr 7) KNil)));
  (* machine.go:5410 tr15 *) ((LTr 15), (KAct APb (KGoto (LSt 298) KNil)));
  (* machine.go:5415 st298 *) ((LSt 298), (KInc (KIf CPe (KGoto (LEofN 298) KNil) KNil KNil)));
  (* machine.go:5419 stCase298 *) ((LCase 298), (KIf (CByte OEq 101) (KGoto (LSt 299) KNil) KNil (KGoto (LTr 7) KNil)));
  (* machine.go:5424 st299 *) ((LSt 299), (KInc (KIf CPe (KGoto (LEofN 299) KNil) KNil KNil)));
  (* machine.go:5428 stCase299 *) ((LCase 299), (KIf (CByte OEq 112) (KGoto (LSt 7) KNil) KNil (KGoto (LTr 7) KNil)));
  (* machine.go:5433 tr16 *) ((LTr 16), (KAct APb (KGoto (LSt 300) KNil)));
  (* machine.go:5438 st300 *) ((LSt 300), (KInc (KIf CPe (KGoto (LEofN 300) KNil) KNil KNil)));
  (* machine.go:5442 stCase300 *) ((LCase 300), (KWide 0 (KIf (CAnd (CByte OGe 48) (CByte OLe 57)) (KWide 256 (KIf (CExt CRfc3339) (KWideAdd 256 KNil) KNil KNil)) KNil (KIf (CAnd (CWide OGe 560) (CWide OLe 569)) (KGoto (LSt 301) KNil) KNil (KGoto (LSt 0) KNil)))));
  (* machine.go:5454 st301 *) ((LSt 301), (KInc (KIf CPe (KGoto (LEofN 301) KNil) KNil KNil)));
  (* machine.go:5458 stCase301 *) ((LCase 301), (KWide 0 (KIf (CAnd (CByte OGe 48) (CByte OLe 57)) (KWide 256 (KIf (CExt CRfc3339) (KWideAdd 256 KNil) KNil KNil)) KNil (KIf (CAnd (CWide OGe 560) (CWide OLe 569)) (KGoto (LSt 302) KNil) KNil (KGoto (LSt 0) KNil)))));
  (* machine.go:5470 st302 *) ((LSt 302), (KInc (KIf CPe (KGoto (LEofN 302) KNil) KNil KNil)));
  (* machine.go:5474 stCase302 *) ((LCase 302), (KWide 0 (KIf (CAnd (CByte OGe 48) (CByte OLe 57)) (KWide 256 (KIf (CExt CRfc3339) (KWideAdd 256 KNil) KNil KNil)) KNil (KIf (CAnd (CWide OGe 560) (CWide OLe 569)) (KGoto (LSt 303) KNil) KNil (KGoto (LSt 0) KNil)))));
  (* machine.go:5486 st303 *) ((LSt 303), (KInc (KIf CPe (KGoto (LEofN 303) KNil) KNil KNil)));
  (* machine.go:5490 stCase303 *) ((LCase 303), (KWide 0 (KIf (CAnd (CByte OGe 45) (CByte OLe 45)) (KWide 256 (KIf (CExt CRfc3339) (KWideAdd 256 KNil) KNil KNil)) KNil (KIf (CWide OEq 557) (KGoto (LSt 304) KNil) KNil (KGoto (LSt 0) KNil)))));
  (* machine.go:5502 st304 *) ((LSt 304), (KInc (KIf CPe (KGoto (LEofN 304) KNil) KNil KNil)));
  (* machine.go:5506 stCase304 *) ((LCase 304), (KWide 0 (KBlk (KIf (CByte OGt 48) (KIf (CAnd (CByte OGe 49) (CByte OLe 49)) (KWide 256 (KIf (CExt CRfc3339) (KWideAdd 256 KNil) KNil KNil)) KNil KNil) (KIf (CByte OGe 48) (KWide 256 (KIf (CExt CRfc3339) (KWideAdd 256 KNil) KNil KNil)) KNil KNil) KNil) (KBlk (KIf (CWide OEq 560) (KGoto (LSt 305) KNil) (KIf (CWide OEq 561) (KGoto (LSt 329) KNil) KNil KNil) KNil) (KGoto (LSt 0) KNil)))))
].

(* /repo/rfc3164/machine.go *)
Definition prog3164_12 : list (label * code act cnd) := [
  (* machine.go:5529 st305 *) ((LSt 305), (KInc (KIf CPe (KGoto (LEofN 305) KNil) KNil KNil)));
  (* machine.go:5533 stCase305 *) ((LCase 305), (KWide 0 (KIf (CAnd (CByte OGe 49) (CByte OLe 57)) (KWide 256 (KIf (CExt CRfc3339) (KWideAdd 256 KNil) KNil KNil)) KNil (KIf (CAnd (CWide OGe 561) (CWide OLe 569)) (KGoto (LSt 306) KNil) KNil (KGoto (LSt 0) KNil)))));
  (* machine.go:5545 st306 *) ((LSt 306), (KInc (KIf CPe (KGoto (LEofN 306) KNil) KNil KNil)));
  (* machine.go:5549 stCase306 *) ((LCase 306), (KWide 0 (KIf (CAnd (CByte OGe 45) (CByte OLe 45)) (KWide 256 (KIf (CExt CRfc3339) (KWideAdd 256 KNil) KNil KNil)) KNil (KIf (CWide OEq 557) (KGoto (LSt 307) KNil) KNil (KGoto (LSt 0) KNil)))));
  (* machine.go:5561 st307 *) ((LSt 307), (KInc (KIf CPe (KGoto (LEofN 307) KNil) KNil KNil)));
  (* machine.go:5565 stCase307 *) ((LCase 307), (KWide 0 (KBlk (KIf (CByte OLt 49) (KIf (CAnd (CByte OGe 48) (CByte OLe 48)) (KWide 256 (KIf (CExt CRfc3339) (KWideAdd 256 KNil) KNil KNil)) KNil KNil) (KIf (CByte OGt 50) (KIf (CAnd (CByte OGe 51) (CByte OLe 51)) (KWide 256 (KIf (CExt CRfc3339) (KWideAdd 256 KNil) KNil KNil)) KNil KNil) (KWide 256 (KIf (CExt CRfc3339) (KWideAdd 256 KNil) KNil KNil)) KNil) KNil) (KBlk (KIf (CWide OEq 560) (KGoto (LSt 308) KNil) (KIf (CWide OEq 563) (KGoto (LSt 328) KNil) KNil KNil) KNil) (KIf (CAnd (CWide OGe 561) (CWide OLe 562)) (KGoto (LSt 327) KNil) KNil (KGoto (LSt 0) KNil))))));
  (* machine.go:5598 st308 *) ((LSt 308), (KInc (KIf CPe (KGoto (LEofN 308) KNil) KNil KNil)));
  (* machine.go:5602 stCase308 *) ((LCase 308), (KWide 0 (KIf (CAnd (CByte OGe 49) (CByte OLe 57)) (KWide 256 (KIf (CExt CRfc3339) (KWideAdd 256 KNil) KNil KNil)) KNil (KIf (CAnd (CWide OGe 561) (CWide OLe 569)) (KGoto (LSt 309) KNil) KNil (KGoto (LSt 0) KNil)))));
  (* machine.go:5614 st309 *) ((LSt 309), (KInc (KIf CPe (KGoto (LEofN 309) KNil) KNil KNil)));
  (* machine.go:5618 stCase309 *) ((LCase 309), (KWide 0 (KIf (CAnd (CByte OGe 84) (CByte OLe 84)) (KWide 256 (KIf (CExt CRfc3339) (KWideAdd 256 KNil) KNil KNil)) KNil (KIf (CWide OEq 596) (KGoto (LSt 310) KNil) KNil (KGoto (LSt 0) KNil)))));
  (* machine.go:5630 st310 *) ((LSt 310), (KInc (KIf CPe (KGoto (LEofN 310) KNil) KNil KNil)));
  (* machine.go:5634 stCase310 *) ((LCase 310), (KWide 0 (KBlk (KIf (CByte OGt 49) (KIf (CAnd (CByte OGe 50) (CByte OLe 50)) (KWide 256 (KIf (CExt CRfc3339) (KWideAdd 256 KNil) KNil KNil)) KNil KNil) (KIf (CByte OGe 48) (KWide 256 (KIf (CExt CRfc3339) (KWideAdd 256 KNil) KNil KNil)) KNil KNil) KNil) (KIf (CWide OEq 562) (KGoto (LSt 326) KNil) KNil (KIf (CAnd (CWide OGe 560) (CWide OLe 561)) (KGoto (LSt 311) KNil) KNil (KGoto (LSt 0) KNil))))));
  (* machine.go:5657 st311 *) ((LSt 311), (KInc (KIf CPe (KGoto (LEofN 311) KNil) KNil KNil)));
  (* machine.go:5661 stCase311 *) ((LCase 311), (KWide 0 (KIf (CAnd (CByte OGe 48) (CByte OLe 57)) (KWide 256 (KIf (CExt CRfc3339) (KWideAdd 256 KNil) KNil KNil)) KNil (KIf (CAnd (CWide OGe 560) (CWide OLe 569)) (KGoto (LSt 312) KNil) KNil (KGoto (LSt 0) KNil)))));
  (* machine.go:5673 st312 *) ((LSt 312), (KInc (KIf CPe (KGoto (LEofN 312) KNil) KNil KNil)));
  (* machine.go:5677 stCase312 *) ((LCase 312), (KWide 0 (KIf (CAnd (CByte OGe 58) (CByte OLe 58)) (KWide 256 (KIf (CExt CRfc3339) (KWideAdd 256 KNil) KNil KNil)) KNil (KIf (CWide OEq 570) (KGoto (LSt 313) KNil) KNil (KGoto (LSt 0) KNil)))));
  (* machine.go:5689 st313 *) ((LSt 313), (KInc (KIf CPe (KGoto (LEofN 313) KNil) KNil KNil)));
  (* machine.go:5693 stCase313 *) ((LCase 313), (KWide 0 (KIf (CAnd (CByte OGe 48) (CByte OLe 53)) (KWide 256 (KIf (CExt CRfc3339) (KWideAdd 256 KNil) KNil KNil)) KNil (KIf (CAnd (CWide OGe 560) (CWide OLe 565)) (KGoto (LSt 314) KNil) KNil (KGoto (LSt 0) KNil)))));
  (* machine.go:5705 st314 *) ((LSt 314), (KInc (KIf CPe (KGoto (LEofN 314) KNil) KNil KNil)));
  (* machine.go:5709 stCase314 *) ((LCase 314), (KWide 0 (KIf (CAnd (CByte OGe 48) (CByte OLe 57)) (KWide 256 (KIf (CExt CRfc3339) (KWideAdd 256 KNil) KNil KNil)) KNil (KIf (CAnd (CWide OGe 560) (CWide OLe 569)) (KGoto (LSt 315) KNil) KNil (KGoto (LSt 0) KNil)))));
  (* machine.go:5721 st315 *) ((LSt 315), (KInc (KIf CPe (KGoto (LEofN 315) KNil) KNil KNil)));
  (* machine.go:5725 stCase315 *) ((LCase 315), (KWide 0 (KIf (CAnd (CByte OGe 58) (CByte OLe 58)) (KWide 256 (KIf (CExt CRfc3339) (KWideAdd 256 KNil) KNil KNil)) KNil (KIf (CWide OEq 570) (KGoto (LSt 316) KNil) KNil (KGoto (LSt 0) KNil)))));
  (* machine.go:5737 st316 *) ((LSt 316), (KInc (KIf CPe (KGoto (LEofN 316) KNil) KNil KNil)));
  (* machine.go:5741 stCase316 *) ((LCase 316), (KWide 0 (KIf (CAnd (CByte OGe 48) (CByte OLe 53)) (KWide 256 (KIf (CExt CRfc3339) (KWideAdd 256 KNil) KNil KNil)) KNil (KIf (CAnd (CWide OGe 560) (CWide OLe 565)) (KGoto (LSt 317) KNil) KNil (KGoto (LSt 0) KNil)))));
  (* machine.go:5753 st317 *) ((LSt 317), (KInc (KIf CPe (KGoto (LEofN 317) KNil) KNil KNil)));
  (* machine.go:5757 stCase317 *) ((LCase 317), (KWide 0 (KIf (CAnd (CByte OGe 48) (CByte OLe 57)) (KWide 256 (KIf (CExt CRfc3339) (KWideAdd 256 KNil) KNil KNil)) KNil (KIf (CAnd (CWide OGe 560) (CWide OLe 569)) (KGoto (LSt 318) KNil) KNil (KGoto (LSt 0) KNil)))));
  (* machine.go:5769 st318 *) ((LSt 318), (KInc (KIf CPe (KGoto (LEofN 318) KNil) KNil KNil)));
  (* machine.go:5773 stCase318 *) ((LCase 318), (KWide 0 (KBlk (KIf (CByte OLt 45) (KIf (CAnd (CByte OGe 43) (CByte OLe 43)) (KWide 256 (KIf (CExt CRfc3339) (KWideAdd 256 KNil) KNil KNil)) KNil KNil) (KIf (CByte OGt 45) (KIf (CAnd (CByte OGe 90) (CByte OLe 90)) (KWide 256 (KIf (CExt CRfc3339) (KWideAdd 256 KNil) KNil KNil)) KNil KNil) (KWide 256 (KIf (CExt CRfc3339) (KWideAdd 256 KNil) KNil KNil)) KNil) KNil) (KBlk (KIf (CWide OEq 555) (KGoto (LSt 319) KNil) (KIf (CWide OEq 557) (KGoto (LSt 319) KNil) (KIf (CWide OEq 602) (KGoto (LSt 324) KNil) KNil KNil) KNil) KNil) (KGoto (LTr 333) KNil)))));
  (* machine.go:5805 st319 *) ((LSt 319), (KInc (KIf CPe (KGoto (LEofN 319) KNil) KNil KNil)));
  (* machine.go:5809 stCase319 *) ((LCase 319), (KWide 0 (KBlk (KIf (CByte OGt 49) (KIf (CAnd (CByte OGe 50) (CByte OLe 50)) (KWide 256 (KIf (CExt CRfc3339) (KWideAdd 256 KNil) KNil KNil)) KNil KNil) (KIf (CByte OGe 48) (KWide 256 (KIf (CExt CRfc3339) (KWideAdd 256 KNil) KNil KNil)) KNil KNil) KNil) (KIf (CWide OEq 562) (KGoto (LSt 325) KNil) KNil (KIf (CAnd (CWide OGe 560) (CWide OLe 561)) (KGoto (LSt 320) KNil) KNil (KGoto (LTr 333) KNil))))));
  (* machine.go:5832 st320 *) ((LSt 320), (KInc (KIf CPe (KGoto (LEofN 320) KNil) KNil KNil)));
  (* machine.go:5836 stCase320 *) ((LCase 320), (KWide 0 (KIf (CAnd (CByte OGe 48) (CByte OLe 57)) (KWide 256 (KIf (CExt CRfc3339) (KWideAdd 256 KNil) KNil KNil)) KNil (KIf (CAnd (CWide OGe 560) (CWide OLe 569)) (KGoto (LSt 321) KNil) KNil (KGoto (LTr 333) KNil)))));
  (* machine.go:5848 st321 *) ((LSt 321), (KInc (KIf CPe (KGoto (LEofN 321) KNil) KNil KNil)));
  (* machine.go:5852 stCase321 *) ((LCase 321), (KWide 0 (KIf (CAnd (CByte OGe 58) (CByte OLe 58)) (KWide 256 (KIf (CExt CRfc3339) (KWideAdd 256 KNil) KNil KNil)) KNil (KIf (CWide OEq 570) (KGoto (LSt 322) KNil) KNil (KGoto (LTr 333) KNil)))));
  (* machine.go:5864 st322 *) ((LSt 322), (KInc (KIf CPe (KGoto (LEofN 322) KNil) KNil KNil)));
  (* machine.go:5868 stCase322 *) ((LCase 322), (KWide 0 (KIf (CAnd (CByte OGe 48) (CByte OLe 53)) (KWide 256 (KIf (CExt CRfc3339) (KWideAdd 256 KNil) KNil KNil)) KNil (KIf (CAnd (CWide OGe 560) (CWide OLe 565)) (KGoto (LSt 323) KNil) KNil (KGoto (LTr 333) KNil)))));
  (* machine.go:5880 st323 *) ((LSt 323), (KInc (KIf CPe (KGoto (LEofN 323) KNil) KNil KNil)));
  (* machine.go:5884 stCase323 *) ((LCase 323), (KWide 0 (KIf (CAnd (CByte OGe 48) (CByte OLe 57)) (KWide 256 (KIf (CExt CRfc3339) (KWideAdd 256 KNil) KNil KNil)) KNil (KIf (CAnd (CWide OGe 560) (CWide OLe 569)) (KGoto (LSt 324) KNil) KNil (KGoto (LTr 333) KNil)))));
  (* machine.go:5896 st324 *) ((LSt 324), (KInc (KIf CPe (KGoto (LEofN 324) KNil) KNil KNil)));
  (* machine.go:5900 stCase324 *) ((LCase 324), (KIf (CByte OEq 32) (KGoto (LTr 341) KNil) KNil (KGoto (LSt 0) KNil)));
  (* machine.go:5905 st325 *) ((LSt 325), (KInc (KIf CPe (KGoto (LEofN 325) KNil) KNil KNil)));
  (* machine.go:5909 stCase325 *) ((LCase 325), (KWide 0 (KIf (CAnd (CByte OGe 48) (CByte OLe 51)) (KWide 256 (KIf (CExt CRfc3339) (KWideAdd 256 KNil) KNil KNil)) KNil (KIf (CAnd (CWide OGe 560) (CWide OLe 563)) (KGoto (LSt 321) KNil) KNil (KGoto (LTr 333) KNil)))));
  (* machine.go:5921 st326 *) ((LSt 326), (KInc (KIf CPe (KGoto (LEofN 326) KNil) KNil KNil)));
  (* machine.go:5925 stCase326 *) ((LCase 326), (KWide 0 (KIf (CAnd (CByte OGe 48) (CByte OLe 51)) (KWide 256 (KIf (CExt CRfc3339) (KWideAdd 256 KNil) KNil KNil)) KNil (KIf (CAnd (CWide OGe 560) (CWide OLe 563)) (KGoto (LSt 312) KNil) KNil (KGoto (LSt 0) KNil)))));
  (* machine.go:5937 st327 *) ((LSt 327), (KInc (KIf CPe (KGoto (LEofN 327) KNil) KNil KNil)));
  (* machine.go:5941 stCase327 *) ((LCase 327), (KWide 0 (KIf (CAnd (CByte OGe 48) (CByte OLe 57)) (KWide 256 (KIf (CExt CRfc3339) (KWideAdd 256 KNil) KNil KNil)) KNil (KIf (CAnd (CWide OGe 560) (CWide OLe 569)) (KGoto (LSt 309) KNil) KNil (KGoto (LSt 0) KNil)))));
  (* machine.go:5953 st328 *) ((LSt 328), (KInc (KIf CPe (KGoto (LEofN 328) KNil) KNil KNil)));
  (* machine.go:5957 stCase328 *) ((LCase 328), (KWide 0 (KIf (CAnd (CByte OGe 48) (CByte OLe 49)) (KWide 256 (KIf (CExt CRfc3339) (KWideAdd 256 KNil) KNil KNil)) KNil (KIf (CAnd (CWide OGe 560) (CWide OLe 561)) (KGoto (LSt 309) KNil) KNil (KGoto (LSt 0) KNil)))));
  (* machine.go:5969 st329 *) ((LSt 329), (KInc (KIf CPe (KGoto (LEofN 329) KNil) KNil KNil)));
  (* machine.go:5973 stCase329 *) ((LCase 329), (KWide 0 (KIf (CAnd (CByte OGe 48) (CByte OLe 50)) (KWide 256 (KIf (CExt CRfc3339) (KWideAdd 256 KNil) KNil KNil)) KNil (KIf (CAnd (CWide OGe 560) (CWide OLe 562)) (KGoto (LSt 306) KNil) KNil (KGoto (LSt 0) KNil)))));
  (* machine.go:5985 tr4 *) ((LTr 4), (KAct APb (KGoto (LSt 330) KNil)));
  (* machine.go:5990 st330 *) ((LSt 330), (KInc (KIf CPe (KGoto (LEofN 330) KNil) KNil KNil)));
  (* machine.go:5994 stCase330 *) ((LCase 330), (KAct APriority (KAct APrioritySet (KBlk (KIf (CByte OEq 57) (KGoto (LSt 332) KNil) (KIf (CByte OEq 62) (KGoto (LSt 4) KNil) KNil KNil) KNil) (KIf (CAnd (CByte OGe 48) (CByte OLe 56)) (KGoto (LSt 331) KNil) KNil (KGoto (LTr 2) KNil))))));
  (* machine.go:6009 tr5 *) ((LTr 5), (KAct APb (KGoto (LSt 331) KNil)));
  (* machine.go:6014 st331 *) ((LSt 331), (KInc (KIf CPe (KGoto (LEofN 331) KNil) KNil KNil)));
  (* machine.go:6018 stCase331 *) ((LCase 331), (KAct APriority (KAct APrioritySet (KIf (CByte OEq 62) (KGoto (LSt 4) KNil) KNil (KIf (CAnd (CByte OGe 48) (CByte OLe 57)) (KGoto (LSt 3) KNil) KNil (KGoto (LTr 2) KNil))))));
  (* machine.go:6030 st332 *) ((LSt 332), (KInc (KIf CPe (KGoto (LEofN 332) KNil) KNil KNil)));
  (* machine.go:6034 stCase332 *) ((LCase 332), (KAct APriority (KAct APrioritySet (KIf (CByte OEq 62) (KGoto (LSt 4) KNil) KNil (KIf (CAnd (CByte OGe 48) (CByte OLe 49)) (KGoto (LSt 3) KNil) KNil (KGoto (LTr 2) KNil))))));
  (* machine.go:6046 st373 *) ((LSt 373), (KInc (KIf CPe (KGoto (LEofN 373) KNil) KNil KNil)));
  (* machine.go:6050 stCase373 *) ((LCase 373), (KBlk (KIf (CByte OEq 10) (KGoto (LSt 0) KNil) (KIf (CByte OEq 13) (KGoto (LSt 0) KNil) KNil KNil) KNil) (KGoto (LSt 373) KNil)))
].

(* /repo/rfc3164/machine.go *)
Definition prog3164_13 : list (label * code act cnd) := [
  (* machine.go:6058 stOut *) (LStOut, KNil);
  (* machine.go:6059 _testEof2 *) ((LEofN 2), (KCs 2 (KGoto LEof KNil)));
  (* machine.go:6062 _testEof3 *) ((LEofN 3), (KCs 3 (KGoto LEof KNil)));
  (* machine.go:6065 _testEof4 *) ((LEofN 4), (KCs 4 (KGoto LEof KNil)));
  (* machine.go:6068 _testEof5 *) ((LEofN 5), (KCs 5 (KGoto LEof KNil)));
  (* machine.go:6071 _testEof6 *) ((LEofN 6), (KCs 6 (KGoto LEof KNil)));
  (* machine.go:6074 _testEof7 *) ((LEofN 7), (KCs 7 (KGoto LEof KNil)));
  (* machine.go:6077 _testEof8 *) ((LEofN 8), (KCs 8 (KGoto LEof KNil)));
  (* machine.go:6080 _testEof9 *) ((LEofN 9), (KCs 9 (KGoto LEof KNil)));
  (* machine.go:6083 _testEof10 *) ((LEofN 10), (KCs 10 (KGoto LEof KNil)));
  (* machine.go:6086 _testEof11 *) ((LEofN 11), (KCs 11 (KGoto LEof KNil)));
  (* machine.go:6089 _testEof12 *) ((LEofN 12), (KCs 12 (KGoto LEof KNil)));
  (* machine.go:6092 _testEof13 *) ((LEofN 13), (KCs 13 (KGoto LEof KNil)));
  (* machine.go:6095 _testEof14 *) ((LEofN 14), (KCs 14 (KGoto LEof KNil)));
  (* machine.go:6098 _testEof15 *) ((LEofN 15), (KCs 15 (KGoto LEof KNil)));
  (* machine.go:6101 _testEof16 *) ((LEofN 16), (KCs 16 (KGoto LEof KNil)));
  (* machine.go:6104 _testEof17 *) ((LEofN 17), (KCs 17 (KGoto LEof KNil)));
  (* machine.go:6107 _testEof18 *) ((LEofN 18), (KCs 18 (KGoto LEof KNil)));
  (* machine.go:6110 _testEof19 *) ((LEofN 19), (KCs 19 (KGoto LEof KNil)));
  (* machine.go:6113 _testEof20 *) ((LEofN 20), (KCs 20 (KGoto LEof KNil)));
  (* machine.go:6116 _testEof21 *) ((LEofN 21), (KCs 21 (KGoto LEof KNil)));
  (* machine.go:6119 _testEof22 *) ((LEofN 22), (KCs 22 (KGoto LEof KNil)));
  (* machine.go:6122 _testEof333 *) ((LEofN 333), (KCs 333 (KGoto LEof KNil)));
  (* machine.go:6125 _testEof334 *) ((LEofN 334), (KCs 334 (KGoto LEof KNil)));
  (* machine.go:6128 _testEof335 *) ((LEofN 335), (KCs 335 (KGoto LEof KNil)));
  (* machine.go:6131 _testEof336 *) ((LEofN 336), (KCs 336 (KGoto LEof KNil)));
  (* machine.go:6134 _testEof337 *) ((LEofN 337), (KCs 337 (KGoto LEof KNil)));
  (* machine.go:6137 _testEof338 *) ((LEofN 338), (KCs 338 (KGoto LEof KNil)));
  (* machine.go:6140 _testEof339 *) ((LEofN 339), (KCs 339 (KGoto LEof KNil)));
  (* machine.go:6143 _testEof340 *) ((LEofN 340), (KCs 340 (KGoto LEof KNil)));
  (* machine.go:6146 _testEof341 *) ((LEofN 341), (KCs 341 (KGoto LEof KNil)));
  (* machine.go:6149 _testEof342 *) ((LEofN 342), (KCs 342 (KGoto LEof KNil)));
  (* machine.go:6152 _testEof343 *) ((LEofN 343), (KCs 343 (KGoto LEof KNil)));
  (* machine.go:6155 _testEof344 *) ((LEofN 344), (KCs 344 (KGoto LEof KNil)));
  (* machine.go:6158 _testEof345 *) ((LEofN 345), (KCs 345 (KGoto LEof KNil)));
  (* machine.go:6161 _testEof346 *) ((LEofN 346), (KCs 346 (KGoto LEof KNil)));
  (* machine.go:6164 _testEof347 *) ((LEofN 347), (KCs 347 (KGoto LEof KNil)));
  (* machine.go:6167 _testEof348 *) ((LEofN 348), (KCs 348 (KGoto LEof KNil)));
  (* machine.go:6170 _testEof349 *) ((LEofN 349), (KCs 349 (KGoto LEof KNil)));
  (* machine.go:6173 _testEof350 *) ((LEofN 350), (KCs 350 (KGoto LEof KNil)));
  (* machine.go:6176 _testEof351 *) ((LEofN 351), (KCs 351 (KGoto LEof KNil)));
  (* machine.go:6179 _testEof352 *) ((LEofN 352), (KCs 352 (KGoto LEof KNil)));
  (* machine.go:6182 _testEof353 *) ((LEofN 353), (KCs 353 (KGoto LEof KNil)));
  (* machine.go:6185 _testEof354 *) ((LEofN 354), (KCs 354 (KGoto LEof KNil)));
  (* machine.go:6188 _testEof355 *) ((LEofN 355), (KCs 355 (KGoto LEof KNil)));
  (* machine.go:6191 _testEof356 *) ((LEofN 356), (KCs 356 (KGoto LEof KNil)));
  (* machine.go:6194 _testEof357 *) ((LEofN 357), (KCs 357 (KGoto LEof KNil)));
  (* machine.go:6197 _testEof358 *) ((LEofN 358), (KCs 358 (KGoto LEof KNil)));
  (* machine.go:6200 _testEof359 *) ((LEofN 359), (KCs 359 (KGoto LEof KNil)));
  (* machine.go:6203 _testEof360 *) ((LEofN 360), (KCs 360 (KGoto LEof KNil)));
  (* machine.go:6206 _testEof361 *) ((LEofN 361), (KCs 361 (KGoto LEof KNil)));
  (* machine.go:6209 _testEof362 *) ((LEofN 362), (KCs 362 (KGoto LEof KNil)));
  (* machine.go:6212 _testEof363 *) ((LEofN 363), (KCs 363 (KGoto LEof KNil)));
  (* machine.go:6215 _testEof364 *) ((LEofN 364), (KCs 364 (KGoto LEof KNil)));
  (* machine.go:6218 _testEof365 *) ((LEofN 365), (KCs 365 (KGoto LEof KNil)));
  (* machine.go:6221 _testEof366 *) ((LEofN 366), (KCs 366 (KGoto LEof KNil)));
  (* machine.go:6224 _testEof367 *) ((LEofN 367), (KCs 367 (KGoto LEof KNil)));
  (* machine.go:6227 _testEof368 *) ((LEofN 368), (KCs 368 (KGoto LEof KNil)));
  (* machine.go:6230 _testEof23 *) ((LEofN 23), (KCs 23 (KGoto LEof KNil)));
  (* machine.go:6233 _testEof24 *) ((LEofN 24), (KCs 24 (KGoto LEof KNil)))
].

(* /repo/rfc3164/machine.go *)
Definition prog3164_14 : list (label * code act cnd) := [
  (* machine.go:6236 _testEof25 *) ((LEofN 25), (KCs 25 (KGoto LEof KNil)));
  (* machine.go:6239 _testEof26 *) ((LEofN 26), (KCs 26 (KGoto LEof KNil)));
  (* machine.go:6242 _testEof369 *) ((LEofN 369), (KCs 369 (KGoto LEof KNil)));
  (* machine.go:6245 _testEof370 *) ((LEofN 370), (KCs 370 (KGoto LEof KNil)));
  (* machine.go:6248 _testEof371 *) ((LEofN 371), (KCs 371 (KGoto LEof KNil)));
  (* machine.go:6251 _testEof372 *) ((LEofN 372), (KCs 372 (KGoto LEof KNil)));
  (* machine.go:6254 _testEof27 *) ((LEofN 27), (KCs 27 (KGoto LEof KNil)));
  (* machine.go:6257 _testEof28 *) ((LEofN 28), (KCs 28 (KGoto LEof KNil)));
  (* machine.go:6260 _testEof29 *) ((LEofN 29), (KCs 29 (KGoto LEof KNil)));
  (* machine.go:6263 _testEof30 *) ((LEofN 30), (KCs 30 (KGoto LEof KNil)));
  (* machine.go:6266 _testEof31 *) ((LEofN 31), (KCs 31 (KGoto LEof KNil)));
  (* machine.go:6269 _testEof32 *) ((LEofN 32), (KCs 32 (KGoto LEof KNil)));
  (* machine.go:6272 _testEof33 *) ((LEofN 33), (KCs 33 (KGoto LEof KNil)));
  (* machine.go:6275 _testEof34 *) ((LEofN 34), (KCs 34 (KGoto LEof KNil)));
  (* machine.go:6278 _testEof35 *) ((LEofN 35), (KCs 35 (KGoto LEof KNil)));
  (* machine.go:6281 _testEof36 *) ((LEofN 36), (KCs 36 (KGoto LEof KNil)));
  (* machine.go:6284 _testEof37 *) ((LEofN 37), (KCs 37 (KGoto LEof KNil)));
  (* machine.go:6287 _testEof38 *) ((LEofN 38), (KCs 38 (KGoto LEof KNil)));
  (* machine.go:6290 _testEof39 *) ((LEofN 39), (KCs 39 (KGoto LEof KNil)));
  (* machine.go:6293 _testEof40 *) ((LEofN 40), (KCs 40 (KGoto LEof KNil)));
  (* machine.go:6296 _testEof41 *) ((LEofN 41), (KCs 41 (KGoto LEof KNil)));
  (* machine.go:6299 _testEof42 *) ((LEofN 42), (KCs 42 (KGoto LEof KNil)));
  (* machine.go:6302 _testEof43 *) ((LEofN 43), (KCs 43 (KGoto LEof KNil)));
  (* machine.go:6305 _testEof44 *) ((LEofN 44), (KCs 44 (KGoto LEof KNil)));
  (* machine.go:6308 _testEof45 *) ((LEofN 45), (KCs 45 (KGoto LEof KNil)));
  (* machine.go:6311 _testEof46 *) ((LEofN 46), (KCs 46 (KGoto LEof KNil)));
  (* machine.go:6314 _testEof47 *) ((LEofN 47), (KCs 47 (KGoto LEof KNil)));
  (* machine.go:6317 _testEof48 *) ((LEofN 48), (KCs 48 (KGoto LEof KNil)));
  (* machine.go:6320 _testEof49 *) ((LEofN 49), (KCs 49 (KGoto LEof KNil)));
  (* machine.go:6323 _testEof50 *) ((LEofN 50), (KCs 50 (KGoto LEof KNil)));
  (* machine.go:6326 _testEof51 *) ((LEofN 51), (KCs 51 (KGoto LEof KNil)));
  (* machine.go:6329 _testEof52 *) ((LEofN 52), (KCs 52 (KGoto LEof KNil)));
  (* machine.go:6332 _testEof53 *) ((LEofN 53), (KCs 53 (KGoto LEof KNil)));
  (* machine.go:6335 _testEof54 *) ((LEofN 54), (KCs 54 (KGoto LEof KNil)));
  (* machine.go:6338 _testEof55 *) ((LEofN 55), (KCs 55 (KGoto LEof KNil)));
  (* machine.go:6341 _testEof56 *) ((LEofN 56), (KCs 56 (KGoto LEof KNil)));
  (* machine.go:6344 _testEof57 *) ((LEofN 57), (KCs 57 (KGoto LEof KNil)));
  (* machine.go:6347 _testEof58 *) ((LEofN 58), (KCs 58 (KGoto LEof KNil)));
  (* machine.go:6350 _testEof59 *) ((LEofN 59), (KCs 59 (KGoto LEof KNil)));
  (* machine.go:6353 _testEof60 *) ((LEofN 60), (KCs 60 (KGoto LEof KNil)));
  (* machine.go:6356 _testEof61 *) ((LEofN 61), (KCs 61 (KGoto LEof KNil)));
  (* machine.go:6359 _testEof62 *) ((LEofN 62), (KCs 62 (KGoto LEof KNil)));
  (* machine.go:6362 _testEof63 *) ((LEofN 63), (KCs 63 (KGoto LEof KNil)));
  (* machine.go:6365 _testEof64 *) ((LEofN 64), (KCs 64 (KGoto LEof KNil)));
  (* machine.go:6368 _testEof65 *) ((LEofN 65), (KCs 65 (KGoto LEof KNil)));
  (* machine.go:6371 _testEof66 *) ((LEofN 66), (KCs 66 (KGoto LEof KNil)));
  (* machine.go:6374 _testEof67 *) ((LEofN 67), (KCs 67 (KGoto LEof KNil)));
  (* machine.go:6377 _testEof68 *) ((LEofN 68), (KCs 68 (KGoto LEof KNil)));
  (* machine.go:6380 _testEof69 *) ((LEofN 69), (KCs 69 (KGoto LEof KNil)));
  (* machine.go:6383 _testEof70 *) ((LEofN 70), (KCs 70 (KGoto LEof KNil)));
  (* machine.go:6386 _testEof71 *) ((LEofN 71), (KCs 71 (KGoto LEof KNil)));
  (* machine.go:6389 _testEof72 *) ((LEofN 72), (KCs 72 (KGoto LEof KNil)));
  (* machine.go:6392 _testEof73 *) ((LEofN 73), (KCs 73 (KGoto LEof KNil)));
  (* machine.go:6395 _testEof74 *) ((LEofN 74), (KCs 74 (KGoto LEof KNil)));
  (* machine.go:6398 _testEof75 *) ((LEofN 75), (KCs 75 (KGoto LEof KNil)));
  (* machine.go:6401 _testEof76 *) ((LEofN 76), (KCs 76 (KGoto LEof KNil)));
  (* machine.go:6404 _testEof77 *) ((LEofN 77), (KCs 77 (KGoto LEof KNil)));
  (* machine.go:6407 _testEof78 *) ((LEofN 78), (KCs 78 (KGoto LEof KNil)));
  (* machine.go:6410 _testEof79 *) ((LEofN 79), (KCs 79 (KGoto LEof KNil)));
  (* machine.go:6413 _testEof80 *) ((LEofN 80), (KCs 80 (KGoto LEof KNil)))
].

(* /repo/rfc3164/machine.go *)
Definition prog3164_15 : list (label * code act cnd) := [
  (* machine.go:6416 _testEof81 *) ((LEofN 81), (KCs 81 (KGoto LEof KNil)));
  (* machine.go:6419 _testEof82 *) ((LEofN 82), (KCs 82 (KGoto LEof KNil)));
  (* machine.go:6422 _testEof83 *) ((LEofN 83), (KCs 83 (KGoto LEof KNil)));
  (* machine.go:6425 _testEof84 *) ((LEofN 84), (KCs 84 (KGoto LEof KNil)));
  (* machine.go:6428 _testEof85 *) ((LEofN 85), (KCs 85 (KGoto LEof KNil)));
  (* machine.go:6431 _testEof86 *) ((LEofN 86), (KCs 86 (KGoto LEof KNil)));
  (* machine.go:6434 _testEof87 *) ((LEofN 87), (KCs 87 (KGoto LEof KNil)));
  (* machine.go:6437 _testEof88 *) ((LEofN 88), (KCs 88 (KGoto LEof KNil)));
  (* machine.go:6440 _testEof89 *) ((LEofN 89), (KCs 89 (KGoto LEof KNil)));
  (* machine.go:6443 _testEof90 *) ((LEofN 90), (KCs 90 (KGoto LEof KNil)));
  (* machine.go:6446 _testEof91 *) ((LEofN 91), (KCs 91 (KGoto LEof KNil)));
  (* machine.go:6449 _testEof92 *) ((LEofN 92), (KCs 92 (KGoto LEof KNil)));
  (* machine.go:6452 _testEof93 *) ((LEofN 93), (KCs 93 (KGoto LEof KNil)));
  (* machine.go:6455 _testEof94 *) ((LEofN 94), (KCs 94 (KGoto LEof KNil)));
  (* machine.go:6458 _testEof95 *) ((LEofN 95), (KCs 95 (KGoto LEof KNil)));
  (* machine.go:6461 _testEof96 *) ((LEofN 96), (KCs 96 (KGoto LEof KNil)));
  (* machine.go:6464 _testEof97 *) ((LEofN 97), (KCs 97 (KGoto LEof KNil)));
  (* machine.go:6467 _testEof98 *) ((LEofN 98), (KCs 98 (KGoto LEof KNil)));
  (* machine.go:6470 _testEof99 *) ((LEofN 99), (KCs 99 (KGoto LEof KNil)));
  (* machine.go:6473 _testEof100 *) ((LEofN 100), (KCs 100 (KGoto LEof KNil)));
  (* machine.go:6476 _testEof101 *) ((LEofN 101), (KCs 101 (KGoto LEof KNil)));
  (* machine.go:6479 _testEof102 *) ((LEofN 102), (KCs 102 (KGoto LEof KNil)));
  (* machine.go:6482 _testEof103 *) ((LEofN 103), (KCs 103 (KGoto LEof KNil)));
  (* machine.go:6485 _testEof104 *) ((LEofN 104), (KCs 104 (KGoto LEof KNil)));
  (* machine.go:6488 _testEof105 *) ((LEofN 105), (KCs 105 (KGoto LEof KNil)));
  (* machine.go:6491 _testEof106 *) ((LEofN 106), (KCs 106 (KGoto LEof KNil)));
  (* machine.go:6494 _testEof107 *) ((LEofN 107), (KCs 107 (KGoto LEof KNil)));
  (* machine.go:6497 _testEof108 *) ((LEofN 108), (KCs 108 (KGoto LEof KNil)));
  (* machine.go:6500 _testEof109 *) ((LEofN 109), (KCs 109 (KGoto LEof KNil)));
  (* machine.go:6503 _testEof110 *) ((LEofN 110), (KCs 110 (KGoto LEof KNil)));
  (* machine.go:6506 _testEof111 *) ((LEofN 111), (KCs 111 (KGoto LEof KNil)));
  (* machine.go:6509 _testEof112 *) ((LEofN 112), (KCs 112 (KGoto LEof KNil)));
  (* machine.go:6512 _testEof113 *) ((LEofN 113), (KCs 113 (KGoto LEof KNil)));
  (* machine.go:6515 _testEof114 *) ((LEofN 114), (KCs 114 (KGoto LEof KNil)));
  (* machine.go:6518 _testEof115 *) ((LEofN 115), (KCs 115 (KGoto LEof KNil)));
  (* machine.go:6521 _testEof116 *) ((LEofN 116), (KCs 116 (KGoto LEof KNil)));
  (* machine.go:6524 _testEof117 *) ((LEofN 117), (KCs 117 (KGoto LEof KNil)));
  (* machine.go:6527 _testEof118 *) ((LEofN 118), (KCs 118 (KGoto LEof KNil)));
  (* machine.go:6530 _testEof119 *) ((LEofN 119), (KCs 119 (KGoto LEof KNil)));
  (* machine.go:6533 _testEof120 *) ((LEofN 120), (KCs 120 (KGoto LEof KNil)));
  (* machine.go:6536 _testEof121 *) ((LEofN 121), (KCs 121 (KGoto LEof KNil)));
  (* machine.go:6539 _testEof122 *) ((LEofN 122), (KCs 122 (KGoto LEof KNil)));
  (* machine.go:6542 _testEof123 *) ((LEofN 123), (KCs 123 (KGoto LEof KNil)));
  (* machine.go:6545 _testEof124 *) ((LEofN 124), (KCs 124 (KGoto LEof KNil)));
  (* machine.go:6548 _testEof125 *) ((LEofN 125), (KCs 125 (KGoto LEof KNil)));
  (* machine.go:6551 _testEof126 *) ((LEofN 126), (KCs 126 (KGoto LEof KNil)));
  (* machine.go:6554 _testEof127 *) ((LEofN 127), (KCs 127 (KGoto LEof KNil)));
  (* machine.go:6557 _testEof128 *) ((LEofN 128), (KCs 128 (KGoto LEof KNil)));
  (* machine.go:6560 _testEof129 *) ((LEofN 129), (KCs 129 (KGoto LEof KNil)));
  (* machine.go:6563 _testEof130 *) ((LEofN 130), (KCs 130 (KGoto LEof KNil)));
  (* machine.go:6566 _testEof131 *) ((LEofN 131), (KCs 131 (KGoto LEof KNil)));
  (* machine.go:6569 _testEof132 *) ((LEofN 132), (KCs 132 (KGoto LEof KNil)));
  (* machine.go:6572 _testEof133 *) ((LEofN 133), (KCs 133 (KGoto LEof KNil)));
  (* machine.go:6575 _testEof134 *) ((LEofN 134), (KCs 134 (KGoto LEof KNil)));
  (* machine.go:6578 _testEof135 *) ((LEofN 135), (KCs 135 (KGoto LEof KNil)));
  (* machine.go:6581 _testEof136 *) ((LEofN 136), (KCs 136 (KGoto LEof KNil)));
  (* machine.go:6584 _testEof137 *) ((LEofN 137), (KCs 137 (KGoto LEof KNil)));
  (* machine.go:6587 _testEof138 *) ((LEofN 138), (KCs 138 (KGoto LEof KNil)));
  (* machine.go:6590 _testEof139 *) ((LEofN 139), (KCs 139 (KGoto LEof KNil)));
  (* machine.go:6593 _testEof140 *) ((LEofN 140), (KCs 140 (KGoto LEof KNil)))
].

(* /repo/rfc3164/machine.go *)
Definition prog3164_16 : list (label * code act cnd) := [
  (* machine.go:6596 _testEof141 *) ((LEofN 141), (KCs 141 (KGoto LEof KNil)));
  (* machine.go:6599 _testEof142 *) ((LEofN 142), (KCs 142 (KGoto LEof KNil)));
  (* machine.go:6602 _testEof143 *) ((LEofN 143), (KCs 143 (KGoto LEof KNil)));
  (* machine.go:6605 _testEof144 *) ((LEofN 144), (KCs 144 (KGoto LEof KNil)));
  (* machine.go:6608 _testEof145 *) ((LEofN 145), (KCs 145 (KGoto LEof KNil)));
  (* machine.go:6611 _testEof146 *) ((LEofN 146), (KCs 146 (KGoto LEof KNil)));
  (* machine.go:6614 _testEof147 *) ((LEofN 147), (KCs 147 (KGoto LEof KNil)));
  (* machine.go:6617 _testEof148 *) ((LEofN 148), (KCs 148 (KGoto LEof KNil)));
  (* machine.go:6620 _testEof149 *) ((LEofN 149), (KCs 149 (KGoto LEof KNil)));
  (* machine.go:6623 _testEof150 *) ((LEofN 150), (KCs 150 (KGoto LEof KNil)));
  (* machine.go:6626 _testEof151 *) ((LEofN 151), (KCs 151 (KGoto LEof KNil)));
  (* machine.go:6629 _testEof152 *) ((LEofN 152), (KCs 152 (KGoto LEof KNil)));
  (* machine.go:6632 _testEof153 *) ((LEofN 153), (KCs 153 (KGoto LEof KNil)));
  (* machine.go:6635 _testEof154 *) ((LEofN 154), (KCs 154 (KGoto LEof KNil)));
  (* machine.go:6638 _testEof155 *) ((LEofN 155), (KCs 155 (KGoto LEof KNil)));
  (* machine.go:6641 _testEof156 *) ((LEofN 156), (KCs 156 (KGoto LEof KNil)));
  (* machine.go:6644 _testEof157 *) ((LEofN 157), (KCs 157 (KGoto LEof KNil)));
  (* machine.go:6647 _testEof158 *) ((LEofN 158), (KCs 158 (KGoto LEof KNil)));
  (* machine.go:6650 _testEof159 *) ((LEofN 159), (KCs 159 (KGoto LEof KNil)));
  (* machine.go:6653 _testEof160 *) ((LEofN 160), (KCs 160 (KGoto LEof KNil)));
  (* machine.go:6656 _testEof161 *) ((LEofN 161), (KCs 161 (KGoto LEof KNil)));
  (* machine.go:6659 _testEof162 *) ((LEofN 162), (KCs 162 (KGoto LEof KNil)));
  (* machine.go:6662 _testEof163 *) ((LEofN 163), (KCs 163 (KGoto LEof KNil)));
  (* machine.go:6665 _testEof164 *) ((LEofN 164), (KCs 164 (KGoto LEof KNil)));
  (* machine.go:6668 _testEof165 *) ((LEofN 165), (KCs 165 (KGoto LEof KNil)));
  (* machine.go:6671 _testEof166 *) ((LEofN 166), (KCs 166 (KGoto LEof KNil)));
  (* machine.go:6674 _testEof167 *) ((LEofN 167), (KCs 167 (KGoto LEof KNil)));
  (* machine.go:6677 _testEof168 *) ((LEofN 168), (KCs 168 (KGoto LEof KNil)));
  (* machine.go:6680 _testEof169 *) ((LEofN 169), (KCs 169 (KGoto LEof KNil)));
  (* machine.go:6683 _testEof170 *) ((LEofN 170), (KCs 170 (KGoto LEof KNil)));
  (* machine.go:6686 _testEof171 *) ((LEofN 171), (KCs 171 (KGoto LEof KNil)));
  (* machine.go:6689 _testEof172 *) ((LEofN 172), (KCs 172 (KGoto LEof KNil)));
  (* machine.go:6692 _testEof173 *) ((LEofN 173), (KCs 173 (KGoto LEof KNil)));
  (* machine.go:6695 _testEof174 *) ((LEofN 174), (KCs 174 (KGoto LEof KNil)));
  (* machine.go:6698 _testEof175 *) ((LEofN 175), (KCs 175 (KGoto LEof KNil)));
  (* machine.go:6701 _testEof176 *) ((LEofN 176), (KCs 176 (KGoto LEof KNil)));
  (* machine.go:6704 _testEof177 *) ((LEofN 177), (KCs 177 (KGoto LEof KNil)));
  (* machine.go:6707 _testEof178 *) ((LEofN 178), (KCs 178 (KGoto LEof KNil)));
  (* machine.go:6710 _testEof179 *) ((LEofN 179), (KCs 179 (KGoto LEof KNil)));
  (* machine.go:6713 _testEof180 *) ((LEofN 180), (KCs 180 (KGoto LEof KNil)));
  (* machine.go:6716 _testEof181 *) ((LEofN 181), (KCs 181 (KGoto LEof KNil)));
  (* machine.go:6719 _testEof182 *) ((LEofN 182), (KCs 182 (KGoto LEof KNil)));
  (* machine.go:6722 _testEof183 *) ((LEofN 183), (KCs 183 (KGoto LEof KNil)));
  (* machine.go:6725 _testEof184 *) ((LEofN 184), (KCs 184 (KGoto LEof KNil)));
  (* machine.go:6728 _testEof185 *) ((LEofN 185), (KCs 185 (KGoto LEof KNil)));
  (* machine.go:6731 _testEof186 *) ((LEofN 186), (KCs 186 (KGoto LEof KNil)));
  (* machine.go:6734 _testEof187 *) ((LEofN 187), (KCs 187 (KGoto LEof KNil)));
  (* machine.go:6737 _testEof188 *) ((LEofN 188), (KCs 188 (KGoto LEof KNil)));
  (* machine.go:6740 _testEof189 *) ((LEofN 189), (KCs 189 (KGoto LEof KNil)));
  (* machine.go:6743 _testEof190 *) ((LEofN 190), (KCs 190 (KGoto LEof KNil)));
  (* machine.go:6746 _testEof191 *) ((LEofN 191), (KCs 191 (KGoto LEof KNil)));
  (* machine.go:6749 _testEof192 *) ((LEofN 192), (KCs 192 (KGoto LEof KNil)));
  (* machine.go:6752 _testEof193 *) ((LEofN 193), (KCs 193 (KGoto LEof KNil)));
  (* machine.go:6755 _testEof194 *) ((LEofN 194), (KCs 194 (KGoto LEof KNil)));
  (* machine.go:6758 _testEof195 *) ((LEofN 195), (KCs 195 (KGoto LEof KNil)));
  (* machine.go:6761 _testEof196 *) ((LEofN 196), (KCs 196 (KGoto LEof KNil)));
  (* machine.go:6764 _testEof197 *) ((LEofN 197), (KCs 197 (KGoto LEof KNil)));
  (* machine.go:6767 _testEof198 *) ((LEofN 198), (KCs 198 (KGoto LEof KNil)));
  (* machine.go:6770 _testEof199 *) ((LEofN 199), (KCs 199 (KGoto LEof KNil)));
  (* machine.go:6773 _testEof200 *) ((LEofN 200), (KCs 200 (KGoto LEof KNil)))
].

(* /repo/rfc3164/machine.go *)
Definition prog3164_17 : list (label * code act cnd) := [
  (* machine.go:6776 _testEof201 *) ((LEofN 201), (KCs 201 (KGoto LEof KNil)));
  (* machine.go:6779 _testEof202 *) ((LEofN 202), (KCs 202 (KGoto LEof KNil)));
  (* machine.go:6782 _testEof203 *) ((LEofN 203), (KCs 203 (KGoto LEof KNil)));
  (* machine.go:6785 _testEof204 *) ((LEofN 204), (KCs 204 (KGoto LEof KNil)));
  (* machine.go:6788 _testEof205 *) ((LEofN 205), (KCs 205 (KGoto LEof KNil)));
  (* machine.go:6791 _testEof206 *) ((LEofN 206), (KCs 206 (KGoto LEof KNil)));
  (* machine.go:6794 _testEof207 *) ((LEofN 207), (KCs 207 (KGoto LEof KNil)));
  (* machine.go:6797 _testEof208 *) ((LEofN 208), (KCs 208 (KGoto LEof KNil)));
  (* machine.go:6800 _testEof209 *) ((LEofN 209), (KCs 209 (KGoto LEof KNil)));
  (* machine.go:6803 _testEof210 *) ((LEofN 210), (KCs 210 (KGoto LEof KNil)));
  (* machine.go:6806 _testEof211 *) ((LEofN 211), (KCs 211 (KGoto LEof KNil)));
  (* machine.go:6809 _testEof212 *) ((LEofN 212), (KCs 212 (KGoto LEof KNil)));
  (* machine.go:6812 _testEof213 *) ((LEofN 213), (KCs 213 (KGoto LEof KNil)));
  (* machine.go:6815 _testEof214 *) ((LEofN 214), (KCs 214 (KGoto LEof KNil)));
  (* machine.go:6818 _testEof215 *) ((LEofN 215), (KCs 215 (KGoto LEof KNil)));
  (* machine.go:6821 _testEof216 *) ((LEofN 216), (KCs 216 (KGoto LEof KNil)));
  (* machine.go:6824 _testEof217 *) ((LEofN 217), (KCs 217 (KGoto LEof KNil)));
  (* machine.go:6827 _testEof218 *) ((LEofN 218), (KCs 218 (KGoto LEof KNil)));
  (* machine.go:6830 _testEof219 *) ((LEofN 219), (KCs 219 (KGoto LEof KNil)));
  (* machine.go:6833 _testEof220 *) ((LEofN 220), (KCs 220 (KGoto LEof KNil)));
  (* machine.go:6836 _testEof221 *) ((LEofN 221), (KCs 221 (KGoto LEof KNil)));
  (* machine.go:6839 _testEof222 *) ((LEofN 222), (KCs 222 (KGoto LEof KNil)));
  (* machine.go:6842 _testEof223 *) ((LEofN 223), (KCs 223 (KGoto LEof KNil)));
  (* machine.go:6845 _testEof224 *) ((LEofN 224), (KCs 224 (KGoto LEof KNil)));
  (* machine.go:6848 _testEof225 *) ((LEofN 225), (KCs 225 (KGoto LEof KNil)));
  (* machine.go:6851 _testEof226 *) ((LEofN 226), (KCs 226 (KGoto LEof KNil)));
  (* machine.go:6854 _testEof227 *) ((LEofN 227), (KCs 227 (KGoto LEof KNil)));
  (* machine.go:6857 _testEof228 *) ((LEofN 228), (KCs 228 (KGoto LEof KNil)));
  (* machine.go:6860 _testEof229 *) ((LEofN 229), (KCs 229 (KGoto LEof KNil)));
  (* machine.go:6863 _testEof230 *) ((LEofN 230), (KCs 230 (KGoto LEof KNil)));
  (* machine.go:6866 _testEof231 *) ((LEofN 231), (KCs 231 (KGoto LEof KNil)));
  (* machine.go:6869 _testEof232 *) ((LEofN 232), (KCs 232 (KGoto LEof KNil)));
  (* machine.go:6872 _testEof233 *) ((LEofN 233), (KCs 233 (KGoto LEof KNil)));
  (* machine.go:6875 _testEof234 *) ((LEofN 234), (KCs 234 (KGoto LEof KNil)));
  (* machine.go:6878 _testEof235 *) ((LEofN 235), (KCs 235 (KGoto LEof KNil)));
  (* machine.go:6881 _testEof236 *) ((LEofN 236), (KCs 236 (KGoto LEof KNil)));
  (* machine.go:6884 _testEof237 *) ((LEofN 237), (KCs 237 (KGoto LEof KNil)));
  (* machine.go:6887 _testEof238 *) ((LEofN 238), (KCs 238 (KGoto LEof KNil)));
  (* machine.go:6890 _testEof239 *) ((LEofN 239), (KCs 239 (KGoto LEof KNil)));
  (* machine.go:6893 _testEof240 *) ((LEofN 240), (KCs 240 (KGoto LEof KNil)));
  (* machine.go:6896 _testEof241 *) ((LEofN 241), (KCs 241 (KGoto LEof KNil)));
  (* machine.go:6899 _testEof242 *) ((LEofN 242), (KCs 242 (KGoto LEof KNil)));
  (* machine.go:6902 _testEof243 *) ((LEofN 243), (KCs 243 (KGoto LEof KNil)));
  (* machine.go:6905 _testEof244 *) ((LEofN 244), (KCs 244 (KGoto LEof KNil)));
  (* machine.go:6908 _testEof245 *) ((LEofN 245), (KCs 245 (KGoto LEof KNil)));
  (* machine.go:6911 _testEof246 *) ((LEofN 246), (KCs 246 (KGoto LEof KNil)));
  (* machine.go:6914 _testEof247 *) ((LEofN 247), (KCs 247 (KGoto LEof KNil)));
  (* machine.go:6917 _testEof248 *) ((LEofN 248), (KCs 248 (KGoto LEof KNil)));
  (* machine.go:6920 _testEof249 *) ((LEofN 249), (KCs 249 (KGoto LEof KNil)));
  (* machine.go:6923 _testEof250 *) ((LEofN 250), (KCs 250 (KGoto LEof KNil)));
  (* machine.go:6926 _testEof251 *) ((LEofN 251), (KCs 251 (KGoto LEof KNil)));
  (* machine.go:6929 _testEof252 *) ((LEofN 252), (KCs 252 (KGoto LEof KNil)));
  (* machine.go:6932 _testEof253 *) ((LEofN 253), (KCs 253 (KGoto LEof KNil)));
  (* machine.go:6935 _testEof254 *) ((LEofN 254), (KCs 254 (KGoto LEof KNil)));
  (* machine.go:6938 _testEof255 *) ((LEofN 255), (KCs 255 (KGoto LEof KNil)));
  (* machine.go:6941 _testEof256 *) ((LEofN 256), (KCs 256 (KGoto LEof KNil)));
  (* machine.go:6944 _testEof257 *) ((LEofN 257), (KCs 257 (KGoto LEof KNil)));
  (* machine.go:6947 _testEof258 *) ((LEofN 258), (KCs 258 (KGoto LEof KNil)));
  (* machine.go:6950 _testEof259 *) ((LEofN 259), (KCs 259 (KGoto LEof KNil)));
  (* machine.go:6953 _testEof260 *) ((LEofN 260), (KCs 260 (KGoto LEof KNil)))
].

(* /repo/rfc3164/machine.go *)
Definition prog3164_18 : list (label * code act cnd) := [
  (* machine.go:6956 _testEof261 *) ((LEofN 261), (KCs 261 (KGoto LEof KNil)));
  (* machine.go:6959 _testEof262 *) ((LEofN 262), (KCs 262 (KGoto LEof KNil)));
  (* machine.go:6962 _testEof263 *) ((LEofN 263), (KCs 263 (KGoto LEof KNil)));
  (* machine.go:6965 _testEof264 *) ((LEofN 264), (KCs 264 (KGoto LEof KNil)));
  (* machine.go:6968 _testEof265 *) ((LEofN 265), (KCs 265 (KGoto LEof KNil)));
  (* machine.go:6971 _testEof266 *) ((LEofN 266), (KCs 266 (KGoto LEof KNil)));
  (* machine.go:6974 _testEof267 *) ((LEofN 267), (KCs 267 (KGoto LEof KNil)));
  (* machine.go:6977 _testEof268 *) ((LEofN 268), (KCs 268 (KGoto LEof KNil)));
  (* machine.go:6980 _testEof269 *) ((LEofN 269), (KCs 269 (KGoto LEof KNil)));
  (* machine.go:6983 _testEof270 *) ((LEofN 270), (KCs 270 (KGoto LEof KNil)));
  (* machine.go:6986 _testEof271 *) ((LEofN 271), (KCs 271 (KGoto LEof KNil)));
  (* machine.go:6989 _testEof272 *) ((LEofN 272), (KCs 272 (KGoto LEof KNil)));
  (* machine.go:6992 _testEof273 *) ((LEofN 273), (KCs 273 (KGoto LEof KNil)));
  (* machine.go:6995 _testEof274 *) ((LEofN 274), (KCs 274 (KGoto LEof KNil)));
  (* machine.go:6998 _testEof275 *) ((LEofN 275), (KCs 275 (KGoto LEof KNil)));
  (* machine.go:7001 _testEof276 *) ((LEofN 276), (KCs 276 (KGoto LEof KNil)));
  (* machine.go:7004 _testEof277 *) ((LEofN 277), (KCs 277 (KGoto LEof KNil)));
  (* machine.go:7007 _testEof278 *) ((LEofN 278), (KCs 278 (KGoto LEof KNil)));
  (* machine.go:7010 _testEof279 *) ((LEofN 279), (KCs 279 (KGoto LEof KNil)));
  (* machine.go:7013 _testEof280 *) ((LEofN 280), (KCs 280 (KGoto LEof KNil)));
  (* machine.go:7016 _testEof281 *) ((LEofN 281), (KCs 281 (KGoto LEof KNil)));
  (* machine.go:7019 _testEof282 *) ((LEofN 282), (KCs 282 (KGoto LEof KNil)));
  (* machine.go:7022 _testEof283 *) ((LEofN 283), (KCs 283 (KGoto LEof KNil)));
  (* machine.go:7025 _testEof284 *) ((LEofN 284), (KCs 284 (KGoto LEof KNil)));
  (* machine.go:7028 _testEof285 *) ((LEofN 285), (KCs 285 (KGoto LEof KNil)));
  (* machine.go:7031 _testEof286 *) ((LEofN 286), (KCs 286 (KGoto LEof KNil)));
  (* machine.go:7034 _testEof287 *) ((LEofN 287), (KCs 287 (KGoto LEof KNil)));
  (* machine.go:7037 _testEof288 *) ((LEofN 288), (KCs 288 (KGoto LEof KNil)));
  (* machine.go:7040 _testEof289 *) ((LEofN 289), (KCs 289 (KGoto LEof KNil)));
  (* machine.go:7043 _testEof290 *) ((LEofN 290), (KCs 290 (KGoto LEof KNil)));
  (* machine.go:7046 _testEof291 *) ((LEofN 291), (KCs 291 (KGoto LEof KNil)));
  (* machine.go:7049 _testEof292 *) ((LEofN 292), (KCs 292 (KGoto LEof KNil)));
  (* machine.go:7052 _testEof293 *) ((LEofN 293), (KCs 293 (KGoto LEof KNil)));
  (* machine.go:7055 _testEof294 *) ((LEofN 294), (KCs 294 (KGoto LEof KNil)));
  (* machine.go:7058 _testEof295 *) ((LEofN 295), (KCs 295 (KGoto LEof KNil)));
  (* machine.go:7061 _testEof296 *) ((LEofN 296), (KCs 296 (KGoto LEof KNil)));
  (* machine.go:7064 _testEof297 *) ((LEofN 297), (KCs 297 (KGoto LEof KNil)));
  (* machine.go:7067 _testEof298 *) ((LEofN 298), (KCs 298 (KGoto LEof KNil)));
  (* machine.go:7070 _testEof299 *) ((LEofN 299), (KCs 299 (KGoto LEof KNil)));
  (* machine.go:7073 _testEof300 *) ((LEofN 300), (KCs 300 (KGoto LEof KNil)));
  (* machine.go:7076 _testEof301 *) ((LEofN 301), (KCs 301 (KGoto LEof KNil)));
  (* machine.go:7079 _testEof302 *) ((LEofN 302), (KCs 302 (KGoto LEof KNil)));
  (* machine.go:7082 _testEof303 *) ((LEofN 303), (KCs 303 (KGoto LEof KNil)));
  (* machine.go:7085 _testEof304 *) ((LEofN 304), (KCs 304 (KGoto LEof KNil)));
  (* machine.go:7088 _testEof305 *) ((LEofN 305), (KCs 305 (KGoto LEof KNil)));
  (* machine.go:7091 _testEof306 *) ((LEofN 306), (KCs 306 (KGoto LEof KNil)));
  (* machine.go:7094 _testEof307 *) ((LEofN 307), (KCs 307 (KGoto LEof KNil)));
  (* machine.go:7097 _testEof308 *) ((LEofN 308), (KCs 308 (KGoto LEof KNil)));
  (* machine.go:7100 _testEof309 *) ((LEofN 309), (KCs 309 (KGoto LEof KNil)));
  (* machine.go:7103 _testEof310 *) ((LEofN 310), (KCs 310 (KGoto LEof KNil)));
  (* machine.go:7106 _testEof311 *) ((LEofN 311), (KCs 311 (KGoto LEof KNil)));
  (* machine.go:7109 _testEof312 *) ((LEofN 312), (KCs 312 (KGoto LEof KNil)));
  (* machine.go:7112 _testEof313 *) ((LEofN 313), (KCs 313 (KGoto LEof KNil)));
  (* machine.go:7115 _testEof314 *) ((LEofN 314), (KCs 314 (KGoto LEof KNil)));
  (* machine.go:7118 _testEof315 *) ((LEofN 315), (KCs 315 (KGoto LEof KNil)));
  (* machine.go:7121 _testEof316 *) ((LEofN 316), (KCs 316 (KGoto LEof KNil)));
  (* machine.go:7124 _testEof317 *) ((LEofN 317), (KCs 317 (KGoto LEof KNil)));
  (* machine.go:7127 _testEof318 *) ((LEofN 318), (KCs 318 (KGoto LEof KNil)));
  (* machine.go:7130 _testEof319 *) ((LEofN 319), (KCs 319 (KGoto LEof KNil)));
  (* machine.go:7133 _testEof320 *) ((LEofN 320), (KCs 320 (KGoto LEof KNil)))
].

(* /repo/rfc3164/machine.go *)
Definition prog3164_19 : list (label * code act cnd) := [
  (* machine.go:7136 _testEof321 *) ((LEofN 321), (KCs 321 (KGoto LEof KNil)));
  (* machine.go:7139 _testEof322 *) ((LEofN 322), (KCs 322 (KGoto LEof KNil)));
  (* machine.go:7142 _testEof323 *) ((LEofN 323), (KCs 323 (KGoto LEof KNil)));
  (* machine.go:7145 _testEof324 *) ((LEofN 324), (KCs 324 (KGoto LEof KNil)));
  (* machine.go:7148 _testEof325 *) ((LEofN 325), (KCs 325 (KGoto LEof KNil)));
  (* machine.go:7151 _testEof326 *) ((LEofN 326), (KCs 326 (KGoto LEof KNil)));
  (* machine.go:7154 _testEof327 *) ((LEofN 327), (KCs 327 (KGoto LEof KNil)));
  (* machine.go:7157 _testEof328 *) ((LEofN 328), (KCs 328 (KGoto LEof KNil)));
  (* machine.go:7160 _testEof329 *) ((LEofN 329), (KCs 329 (KGoto LEof KNil)));
  (* machine.go:7163 _testEof330 *) ((LEofN 330), (KCs 330 (KGoto LEof KNil)));
  (* machine.go:7166 _testEof331 *) ((LEofN 331), (KCs 331 (KGoto LEof KNil)));
  (* machine.go:7169 _testEof332 *) ((LEofN 332), (KCs 332 (KGoto LEof KNil)));
  (* machine.go:7172 _testEof373 *) ((LEofN 373), (KCs 373 (KGoto LEof KNil)));
  (* machine.go:7176 _testEof *) (LEof, (KIf CPe (KBlk (KIf (CCs [333; 334; 335; 336; 337; 338; 339; 340; 341; 342; 343; 344; 345; 346; 347; 348; 349; 350; 351; 352; 353; 354; 355; 356; 357; 358; 359; 360; 361; 362; 363; 364; 365; 366; 367; 368; 369; 370; 371; 372]) (KAct AMessage KNil) (KIf (CCs [1]) (KAct (AErr EPri) (KDec (KBlk (KGoto (LSt 373) KNil) KNil))) (KIf (CCs [4; 5; 6; 7; 8; 9; 10; 11; 12; 13; 14; 15; 16; 17; 18; 281; 282; 283; 284; 285; 286; 287; 288; 289; 290; 291; 292; 293; 294; 295; 296; 297; 298; 299]) (KAct (AErr ETimestamp) (KDec (KBlk (KGoto (LSt 373) KNil) KNil))) (KIf (CCs [318; 319; 320; 321; 322; 323; 325]) (KAct (AErr ERFC3339) (KDec (KBlk (KGoto (LSt 373) KNil) KNil))) (KIf (CCs [20; 21; 27; 28; 29; 30; 31; 32; 33; 34; 35; 36; 37; 38; 39; 40; 41; 42; 43; 44; 45; 46; 47; 48; 49; 50; 51; 52; 53; 54; 55; 56; 57; 58; 59; 60; 61; 62; 63; 64; 65; 66; 67; 68; 69; 70; 71; 72; 73; 74; 75; 76; 77; 78; 79; 80; 81; 82; 83; 84; 85; 86; 87; 88; 89; 90; 91; 92; 93; 94; 95; 96; 97; 98; 99; 100; 101; 102; 103; 104; 105; 106; 107; 108; 109; 110; 111; 112; 113; 114; 115; 116; 117; 118; 119; 120; 121; 122; 123; 124; 125; 126; 127; 128; 129; 130; 131; 132; 133; 134; 135; 136; 137; 138; 139; 140; 141; 142; 143; 144; 145; 146; 147; 148; 149; 150; 151; 152; 153; 154; 155; 156; 157; 158; 159; 160; 161; 162; 163; 164; 165; 166; 167; 168; 169; 170; 171; 172; 173; 174; 175; 176; 177; 178; 179; 180; 181; 182; 183; 184; 185; 186; 187; 188; 189; 190; 191; 192; 193; 194; 195; 196; 197; 198; 199; 200; 201; 202; 203; 204; 205; 206; 207; 208; 209; 210; 211; 212; 213; 214; 215; 216; 217; 218; 219; 220; 221; 222; 223; 224; 225; 226; 227; 228; 229; 230; 231; 232; 233; 234; 235; 236; 237; 238; 239; 240; 241; 242; 243; 244; 245; 246; 247; 248; 249; 250; 251; 252; 253; 254; 255; 256; 257; 258; 259; 260; 261; 262; 263; 264; 265; 266; 267; 268; 269; 270; 271; 272; 273; 274; 275; 276; 277; 278; 279; 280]) (KAct (AErr EHostname) (KDec (KBlk (KGoto (LSt 373) KNil) KNil))) (KIf (CCs [22]) (KAct (AErr ETag) (KDec (KBlk (KGoto (LSt 373) KNil) KNil))) (KIf (CCs [2; 3; 330; 331; 332]) (KAct (AErr EPrival) (KDec (KBlk (KGoto (LSt 373) KNil) (KAct (AErr EPri) (KDec (KBlk (KGoto (LSt 373) KNil) KNil)))))) KNil KNil) KNil) KNil) KNil) KNil) KNil) KNil) KNil) KNil KNil));
  (* machine.go:7249 _out *) (LOut, KNil)
].

(* /repo/rfc3164/machine.go lines 111-7251: all blocks in source order *)
Definition prog3164 : list (label * code act cnd) :=
  prog3164_0 ++ prog3164_1 ++ prog3164_2 ++ prog3164_3 ++ prog3164_4 ++ prog3164_5 ++ prog3164_6 ++ prog3164_7 ++ prog3164_8 ++ prog3164_9 ++ prog3164_10 ++ prog3164_11 ++ prog3164_12 ++ prog3164_13 ++ prog3164_14 ++ prog3164_15 ++ prog3164_16 ++ prog3164_17 ++ prog3164_18 ++ prog3164_19.
