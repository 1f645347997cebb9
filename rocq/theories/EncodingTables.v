(** The tables of content/extract/encoding.go, generated from the source by a
    script: character code (or glyph name) and Unicode value. *)
From Verif Require Export Util.
Local Open Scope Z_scope.

(** encoding.go:339-402 *)
Definition winAnsiEncoding : zmap Z :=
  [(32, 32); (33, 33); (34, 34); (35, 35); (36, 36); (37, 37); (38, 38); (39, 39); (40, 40); (41, 41); (42, 42); (43, 43);
   (44, 44); (45, 45); (46, 46); (47, 47); (48, 48); (49, 49); (50, 50); (51, 51); (52, 52); (53, 53); (54, 54); (55, 55);
   (56, 56); (57, 57); (58, 58); (59, 59); (60, 60); (61, 61); (62, 62); (63, 63); (64, 64); (65, 65); (66, 66); (67, 67);
   (68, 68); (69, 69); (70, 70); (71, 71); (72, 72); (73, 73); (74, 74); (75, 75); (76, 76); (77, 77); (78, 78); (79, 79);
   (80, 80); (81, 81); (82, 82); (83, 83); (84, 84); (85, 85); (86, 86); (87, 87); (88, 88); (89, 89); (90, 90); (91, 91);
   (92, 92); (93, 93); (94, 94); (95, 95); (96, 96); (97, 97); (98, 98); (99, 99); (100, 100); (101, 101); (102, 102); (103, 103);
   (104, 104); (105, 105); (106, 106); (107, 107); (108, 108); (109, 109); (110, 110); (111, 111); (112, 112); (113, 113); (114, 114); (115, 115);
   (116, 116); (117, 117); (118, 118); (119, 119); (120, 120); (121, 121); (122, 122); (123, 123); (124, 124); (125, 125); (126, 126); (128, 8364);
   (130, 8218); (131, 402); (132, 8222); (133, 8230); (134, 8224); (135, 8225); (136, 710); (137, 8240); (138, 352); (139, 8249); (140, 338); (142, 381);
   (145, 8216); (146, 8217); (147, 8220); (148, 8221); (149, 8226); (150, 8211); (151, 8212); (152, 732); (153, 8482); (154, 353); (155, 8250); (156, 339);
   (158, 382); (159, 376); (160, 160); (161, 161); (162, 162); (163, 163); (164, 164); (165, 165); (166, 166); (167, 167); (168, 168); (169, 169);
   (170, 170); (171, 171); (172, 172); (173, 173); (174, 174); (175, 175); (176, 176); (177, 177); (178, 178); (179, 179); (180, 180); (181, 181);
   (182, 182); (183, 183); (184, 184); (185, 185); (186, 186); (187, 187); (188, 188); (189, 189); (190, 190); (191, 191); (192, 192); (193, 193);
   (194, 194); (195, 195); (196, 196); (197, 197); (198, 198); (199, 199); (200, 200); (201, 201); (202, 202); (203, 203); (204, 204); (205, 205);
   (206, 206); (207, 207); (208, 208); (209, 209); (210, 210); (211, 211); (212, 212); (213, 213); (214, 214); (215, 215); (216, 216); (217, 217);
   (218, 218); (219, 219); (220, 220); (221, 221); (222, 222); (223, 223); (224, 224); (225, 225); (226, 226); (227, 227); (228, 228); (229, 229);
   (230, 230); (231, 231); (232, 232); (233, 233); (234, 234); (235, 235); (236, 236); (237, 237); (238, 238); (239, 239); (240, 240); (241, 241);
   (242, 242); (243, 243); (244, 244); (245, 245); (246, 246); (247, 247); (248, 248); (249, 249); (250, 250); (251, 251); (252, 252); (253, 253);
   (254, 254); (255, 255)].

(** encoding.go:405-548 *)
Definition macRomanEncoding : zmap Z :=
  [(32, 32); (33, 33); (34, 34); (35, 35); (36, 36); (37, 37); (38, 38); (39, 39); (40, 40); (41, 41); (42, 42); (43, 43);
   (44, 44); (45, 45); (46, 46); (47, 47); (48, 48); (49, 49); (50, 50); (51, 51); (52, 52); (53, 53); (54, 54); (55, 55);
   (56, 56); (57, 57); (58, 58); (59, 59); (60, 60); (61, 61); (62, 62); (63, 63); (64, 64); (65, 65); (66, 66); (67, 67);
   (68, 68); (69, 69); (70, 70); (71, 71); (72, 72); (73, 73); (74, 74); (75, 75); (76, 76); (77, 77); (78, 78); (79, 79);
   (80, 80); (81, 81); (82, 82); (83, 83); (84, 84); (85, 85); (86, 86); (87, 87); (88, 88); (89, 89); (90, 90); (91, 91);
   (92, 92); (93, 93); (94, 94); (95, 95); (96, 96); (97, 97); (98, 98); (99, 99); (100, 100); (101, 101); (102, 102); (103, 103);
   (104, 104); (105, 105); (106, 106); (107, 107); (108, 108); (109, 109); (110, 110); (111, 111); (112, 112); (113, 113); (114, 114); (115, 115);
   (116, 116); (117, 117); (118, 118); (119, 119); (120, 120); (121, 121); (122, 122); (123, 123); (124, 124); (125, 125); (126, 126); (128, 196);
   (129, 197); (130, 199); (131, 201); (132, 209); (133, 214); (134, 220); (135, 225); (136, 224); (137, 226); (138, 228); (139, 227); (140, 229);
   (141, 231); (142, 233); (143, 232); (144, 234); (145, 235); (146, 237); (147, 236); (148, 238); (149, 239); (150, 241); (151, 243); (152, 242);
   (153, 244); (154, 246); (155, 245); (156, 250); (157, 249); (158, 251); (159, 252); (160, 8224); (161, 176); (162, 162); (163, 163); (164, 167);
   (165, 8226); (166, 182); (167, 223); (168, 174); (169, 169); (170, 8482); (171, 180); (172, 168); (173, 8800); (174, 198); (175, 216); (176, 8734);
   (177, 177); (178, 8804); (179, 8805); (180, 165); (181, 181); (182, 8706); (183, 8721); (184, 8719); (185, 960); (186, 8747); (187, 170); (188, 186);
   (189, 937); (190, 230); (191, 248); (192, 191); (193, 161); (194, 172); (195, 8730); (196, 402); (197, 8776); (198, 8710); (199, 171); (200, 187);
   (201, 8230); (202, 160); (203, 192); (204, 195); (205, 213); (206, 338); (207, 339); (208, 8211); (209, 8212); (210, 8220); (211, 8221); (212, 8216);
   (213, 8217); (214, 247); (215, 9674); (216, 255); (217, 376); (218, 8260); (219, 8364); (220, 8249); (221, 8250); (222, 64257); (223, 64258); (224, 8225);
   (225, 183); (226, 8218); (227, 8222); (228, 8240); (229, 194); (230, 202); (231, 193); (232, 203); (233, 200); (234, 205); (235, 206); (236, 207);
   (237, 204); (238, 211); (239, 212); (240, 63743); (241, 210); (242, 218); (243, 219); (244, 217); (245, 305); (246, 710); (247, 732); (248, 175);
   (249, 728); (250, 729); (251, 730); (252, 184); (253, 733); (254, 731); (255, 711)].

(** encoding.go:551-619 *)
Definition standardEncoding : zmap Z :=
  [(32, 32); (33, 33); (34, 34); (35, 35); (36, 36); (37, 37); (38, 38); (39, 8217); (40, 40); (41, 41); (42, 42); (43, 43);
   (44, 44); (45, 45); (46, 46); (47, 47); (48, 48); (49, 49); (50, 50); (51, 51); (52, 52); (53, 53); (54, 54); (55, 55);
   (56, 56); (57, 57); (58, 58); (59, 59); (60, 60); (61, 61); (62, 62); (63, 63); (64, 64); (65, 65); (66, 66); (67, 67);
   (68, 68); (69, 69); (70, 70); (71, 71); (72, 72); (73, 73); (74, 74); (75, 75); (76, 76); (77, 77); (78, 78); (79, 79);
   (80, 80); (81, 81); (82, 82); (83, 83); (84, 84); (85, 85); (86, 86); (87, 87); (88, 88); (89, 89); (90, 90); (91, 91);
   (92, 92); (93, 93); (94, 94); (95, 95); (96, 8216); (97, 97); (98, 98); (99, 99); (100, 100); (101, 101); (102, 102); (103, 103);
   (104, 104); (105, 105); (106, 106); (107, 107); (108, 108); (109, 109); (110, 110); (111, 111); (112, 112); (113, 113); (114, 114); (115, 115);
   (116, 116); (117, 117); (118, 118); (119, 119); (120, 120); (121, 121); (122, 122); (123, 123); (124, 124); (125, 125); (126, 126); (161, 161);
   (162, 162); (163, 163); (164, 8260); (165, 165); (166, 402); (167, 167); (168, 164); (169, 39); (170, 8220); (171, 171); (172, 8249); (173, 8250);
   (174, 64257); (175, 64258); (177, 8211); (178, 8224); (179, 8225); (180, 183); (182, 182); (183, 8226); (184, 8218); (185, 8222); (186, 8221); (187, 187);
   (188, 8230); (189, 8240); (191, 191); (193, 96); (194, 180); (195, 710); (196, 732); (197, 175); (198, 728); (199, 729); (200, 168); (202, 730);
   (203, 184); (205, 733); (206, 731); (207, 711); (208, 8212); (225, 198); (227, 170); (232, 321); (233, 216); (234, 338); (235, 186); (241, 230);
   (245, 305); (248, 322); (249, 248); (250, 339); (251, 223)].

(** encoding.go:622-694 *)
Definition macExpertEncoding : zmap Z :=
  [(32, 32); (33, 63265); (34, 63224); (35, 63394); (36, 63268); (37, 63204); (38, 63270); (39, 63412); (40, 8317); (41, 8318); (42, 8229); (43, 8228);
   (44, 44); (45, 45); (46, 46); (47, 8260); (48, 63280); (49, 63281); (50, 63282); (51, 63283); (52, 63284); (53, 63285); (54, 63286); (55, 63287);
   (56, 63288); (57, 63289); (58, 58); (59, 59); (61, 63198); (63, 63295); (68, 63472); (71, 188); (72, 189); (73, 190); (74, 8539); (75, 8540);
   (76, 8541); (77, 8542); (78, 8531); (79, 8532); (80, 64256); (81, 64257); (82, 64258); (83, 64259); (84, 64260); (85, 8304); (86, 8308); (87, 8309);
   (88, 8310); (89, 8311); (90, 8312); (91, 8313); (92, 8320); (93, 8321); (94, 8322); (95, 8323); (96, 8324); (97, 8325); (98, 8326); (99, 8327);
   (100, 8328); (101, 8329); (102, 185); (103, 178); (104, 179); (105, 8305); (106, 8319); (109, 8729); (110, 63200); (111, 63201); (112, 63202)].

(** encoding.go:697-930 *)
Definition adobeGlyphList : list (bytes * Z) :=
  [(bs "space", 32); (bs "exclam", 33); (bs "quotedbl", 34); (bs "numbersign", 35); (bs "dollar", 36);
   (bs "percent", 37); (bs "ampersand", 38); (bs "quotesingle", 39); (bs "parenleft", 40); (bs "parenright", 41);
   (bs "asterisk", 42); (bs "plus", 43); (bs "comma", 44); (bs "hyphen", 45); (bs "period", 46);
   (bs "slash", 47); (bs "zero", 48); (bs "one", 49); (bs "two", 50); (bs "three", 51);
   (bs "four", 52); (bs "five", 53); (bs "six", 54); (bs "seven", 55); (bs "eight", 56);
   (bs "nine", 57); (bs "colon", 58); (bs "semicolon", 59); (bs "less", 60); (bs "equal", 61);
   (bs "greater", 62); (bs "question", 63); (bs "at", 64); (bs "A", 65); (bs "B", 66);
   (bs "C", 67); (bs "D", 68); (bs "E", 69); (bs "F", 70); (bs "G", 71);
   (bs "H", 72); (bs "I", 73); (bs "J", 74); (bs "K", 75); (bs "L", 76);
   (bs "M", 77); (bs "N", 78); (bs "O", 79); (bs "P", 80); (bs "Q", 81);
   (bs "R", 82); (bs "S", 83); (bs "T", 84); (bs "U", 85); (bs "V", 86);
   (bs "W", 87); (bs "X", 88); (bs "Y", 89); (bs "Z", 90); (bs "bracketleft", 91);
   (bs "backslash", 92); (bs "bracketright", 93); (bs "asciicircum", 94); (bs "underscore", 95); (bs "grave", 96);
   (bs "a", 97); (bs "b", 98); (bs "c", 99); (bs "d", 100); (bs "e", 101);
   (bs "f", 102); (bs "g", 103); (bs "h", 104); (bs "i", 105); (bs "j", 106);
   (bs "k", 107); (bs "l", 108); (bs "m", 109); (bs "n", 110); (bs "o", 111);
   (bs "p", 112); (bs "q", 113); (bs "r", 114); (bs "s", 115); (bs "t", 116);
   (bs "u", 117); (bs "v", 118); (bs "w", 119); (bs "x", 120); (bs "y", 121);
   (bs "z", 122); (bs "braceleft", 123); (bs "bar", 124); (bs "braceright", 125); (bs "asciitilde", 126);
   (bs "exclamdown", 161); (bs "cent", 162); (bs "sterling", 163); (bs "currency", 164); (bs "yen", 165);
   (bs "brokenbar", 166); (bs "section", 167); (bs "dieresis", 168); (bs "copyright", 169); (bs "ordfeminine", 170);
   (bs "guillemotleft", 171); (bs "logicalnot", 172); (bs "registered", 174); (bs "macron", 175); (bs "degree", 176);
   (bs "plusminus", 177); (bs "twosuperior", 178); (bs "threesuperior", 179); (bs "acute", 180); (bs "mu", 181);
   (bs "paragraph", 182); (bs "periodcentered", 183); (bs "cedilla", 184); (bs "onesuperior", 185); (bs "ordmasculine", 186);
   (bs "guillemotright", 187); (bs "onequarter", 188); (bs "onehalf", 189); (bs "threequarters", 190); (bs "questiondown", 191);
   (bs "Agrave", 192); (bs "Aacute", 193); (bs "Acircumflex", 194); (bs "Atilde", 195); (bs "Adieresis", 196);
   (bs "Aring", 197); (bs "AE", 198); (bs "Ccedilla", 199); (bs "Egrave", 200); (bs "Eacute", 201);
   (bs "Ecircumflex", 202); (bs "Edieresis", 203); (bs "Igrave", 204); (bs "Iacute", 205); (bs "Icircumflex", 206);
   (bs "Idieresis", 207); (bs "Eth", 208); (bs "Ntilde", 209); (bs "Ograve", 210); (bs "Oacute", 211);
   (bs "Ocircumflex", 212); (bs "Otilde", 213); (bs "Odieresis", 214); (bs "multiply", 215); (bs "Oslash", 216);
   (bs "Ugrave", 217); (bs "Uacute", 218); (bs "Ucircumflex", 219); (bs "Udieresis", 220); (bs "Yacute", 221);
   (bs "Thorn", 222); (bs "germandbls", 223); (bs "agrave", 224); (bs "aacute", 225); (bs "acircumflex", 226);
   (bs "atilde", 227); (bs "adieresis", 228); (bs "aring", 229); (bs "ae", 230); (bs "ccedilla", 231);
   (bs "egrave", 232); (bs "eacute", 233); (bs "ecircumflex", 234); (bs "edieresis", 235); (bs "igrave", 236);
   (bs "iacute", 237); (bs "icircumflex", 238); (bs "idieresis", 239); (bs "eth", 240); (bs "ntilde", 241);
   (bs "ograve", 242); (bs "oacute", 243); (bs "ocircumflex", 244); (bs "otilde", 245); (bs "odieresis", 246);
   (bs "divide", 247); (bs "oslash", 248); (bs "ugrave", 249); (bs "uacute", 250); (bs "ucircumflex", 251);
   (bs "udieresis", 252); (bs "yacute", 253); (bs "thorn", 254); (bs "ydieresis", 255); (bs "OE", 338);
   (bs "oe", 339); (bs "Scaron", 352); (bs "scaron", 353); (bs "Ydieresis", 376); (bs "Zcaron", 381);
   (bs "zcaron", 382); (bs "florin", 402); (bs "circumflex", 710); (bs "caron", 711); (bs "breve", 728);
   (bs "dotaccent", 729); (bs "ring", 730); (bs "ogonek", 731); (bs "tilde", 732); (bs "hungarumlaut", 733);
   (bs "endash", 8211); (bs "emdash", 8212); (bs "quoteleft", 8216); (bs "quoteright", 8217); (bs "quotesinglbase", 8218);
   (bs "quotedblleft", 8220); (bs "quotedblright", 8221); (bs "quotedblbase", 8222); (bs "dagger", 8224); (bs "daggerdbl", 8225);
   (bs "bullet", 8226); (bs "ellipsis", 8230); (bs "perthousand", 8240); (bs "guilsinglleft", 8249); (bs "guilsinglright", 8250);
   (bs "fraction", 8260); (bs "Euro", 8364); (bs "trademark", 8482); (bs "minus", 8722); (bs "fi", 64257);
   (bs "fl", 64258); (bs "ff", 64256); (bs "ffi", 64259); (bs "ffl", 64260); (bs "dotlessi", 305);
   (bs "Lslash", 321); (bs "lslash", 322)].
