(** Conformance of the node, argument and semantic tuple layers with the expectations of the repository's own tests
    (tests/test_logic_pipeline.py). Generated by tools/mkconf_logic.py. *)
From Coq Require Import Ascii String.
From Coq Require Import List NArith ZArith Arith Bool.
From Verif Require Import PyBase Regex MUtils MTree MLabelled MNgram MLangModel MNormal MNode MSem ConfNormal.
Import ListNotations.
Local Open Scope nat_scope.

Definition logic_unigrams : list (str * (Z * Z)) := map (fun p => (lit (fst p), snd p)) [("and"%string, (37063, 2278341154283320)%Z);
  ("the"%string, (71875, 1271565819802772)%Z);
  ("that"%string, (18046, 1068686778890420)%Z);
  ("with"%string, (9893, 891842294088886)%Z);
  ("for"%string, (9169, 838820698107097)%Z);
  ("was"%string, (21504, 628639281700247)%Z);
  ("her"%string, (13566, 582602566626239)%Z);
  ("his"%string, (11456, 495291555278982)%Z);
  ("had"%string, (12282, 461002139913514)%Z);
  ("into"%string, (3370, 394963265876317)%Z);
  ("out"%string, (4616, 385438428274798)%Z);
  ("were"%string, (5741, 362896312617870)%Z);
  ("him"%string, (5554, 329876875599271)%Z);
  ("them"%string, (3497, 298127416927541)%Z);
  ("you"%string, (8647, 272092860816723)%Z);
  ("she"%string, (11882, 253995669373837)%Z);
  ("over"%string, (2005, 251138218093382)%Z);
  ("like"%string, (3957, 250185734333230)%Z);
  ("but"%string, (5597, 245105820945753)%Z);
  ("would"%string, (4614, 228913597023171)%Z);
  ("one"%string, (4182, 225738651155998)%Z);
  ("are"%string, (3167, 223516189048977)%Z);
  ("down"%string, (2028, 213673856860741)%Z);
  ("all"%string, (3741, 211133900167002)%Z);
  ("this"%string, (4304, 210816405580285)%Z);
  ("who"%string, (3630, 206053986779525)%Z);
  ("off"%string, (1564, 193671697897551)%Z);
  ("they"%string, (5496, 174304528107796)%Z);
  ("there"%string, (3476, 164144701332842)%Z);
  ("more"%string, (2305, 155889842078193)%Z);
  ("than"%string, (1694, 147634982823543)%Z);
  ("could"%string, (3909, 136840166875155)%Z);
  ("what"%string, (3463, 134935199354851)%Z);
  ("people"%string, (1975, 134300210181416)%Z);
  ("its"%string, (1607, 130490275140809)%Z);
  ("not"%string, (5823, 129220296793940)%Z);
  ("your"%string, (1861, 128585307620505)%Z);
  ("have"%string, (4899, 127950318447070)%Z);
  ("without"%string, (746, 115250534978379)%Z);
  ("here"%string, (1196, 112393083697923)%Z);
  ("did"%string, (3955, 111123105351054)%Z);
  ("will"%string, (1297, 108583148657315)%Z);
  ("just"%string, (2670, 106995675723729)%Z);
  ("made"%string, (1569, 102233256922969)%Z);
  ("every"%string, (736, 100010794815948)%Z);
  ("because"%string, (1534, 95883365188624)%Z);
  ("things"%string, (943, 94613386841754)%Z);
  ("herself"%string, (588, 91438440974581)%Z);
  ("toward"%string, (533, 89533473454278)%Z);
  ("two"%string, (1683, 85406043826953)%Z);
  ("too"%string, (1538, 79691141266041)%Z);
  ("how"%string, (1775, 75563711638717)%Z);
  ("everything"%string, (575, 67626346970784)%Z);
  ("called"%string, (890, 67308852384067)%Z);
  ("man"%string, (1693, 67308852384067)%Z);
  ("myself"%string, (386, 65086390277046)%Z);
  ("thing"%string, (863, 63498917343459)%Z);
  ("light"%string, (633, 60958960649721)%Z);
  ("itself"%string, (266, 60958960649721)%Z);
  ("those"%string, (839, 59688982302852)%Z);
  ("themselves"%string, (256, 58101509369265)%Z);
  ("home"%string, (996, 57784014782548)%Z);
  ("looked"%string, (1184, 55561552675527)%Z);
  ("face"%string, (1043, 55561552675527)%Z);
  ("look"%string, (934, 53656585155223)%Z);
  ("took"%string, (1059, 49529155527898)%Z);
  ("most"%string, (869, 47306693420877)%Z);
  ("old"%string, (1050, 46671704247443)%Z);
  ("within"%string, (214, 46036715074008)%Z);
  ("hard"%string, (543, 46036715074008)%Z);
  ("does"%string, (940, 45719220487291)%Z);
  ("looking"%string, (622, 44766736727139)%Z);
  ("used"%string, (594, 44449242140422)%Z);
  ("years"%string, (1349, 44131747553704)%Z);
  ("became"%string, (411, 43496758380270)%Z);
  ("later"%string, (669, 43179263793552)%Z);
  ("new"%string, (885, 43179263793552)%Z);
  ("thought"%string, (1480, 41274296273249)%Z);
  ("ever"%string, (590, 40956801686531)%Z);
  ("children"%string, (690, 40639307099814)%Z);
  ("last"%string, (712, 38734339579510)%Z);
  ("well"%string, (653, 37464361232641)%Z);
  ("money"%string, (397, 36511877472489)%Z);
  ("may"%string, (365, 36511877472489)%Z);
  ("named"%string, (250, 36194382885772)%Z);
  ("family"%string, (714, 33654426192033)%Z);
  ("everyone"%string, (351, 33654426192033)%Z);
  ("beyond"%string, (190, 32701942431882)%Z);
  ("child"%string, (585, 31114469498295)%Z);
  ("yourself"%string, (200, 30796974911578)%Z);
  ("appeared"%string, (243, 30161985738143)%Z);
  ("head"%string, (944, 29844491151426)%Z);
  ("human"%string, (258, 29844491151426)%Z);
  ("world"%string, (724, 29526996564709)%Z);
  ("doing"%string, (473, 28892007391274)%Z);
  ("boy"%string, (712, 28892007391274)%Z);
  ("car"%string, (728, 28892007391274)%Z);
  ("take"%string, (1024, 28257018217839)%Z);
  ("been"%string, (3700, 27622029044405)%Z);
  ("use"%string, (348, 27304534457687)%Z);
  ("why"%string, (588, 26669545284253)%Z);
  ("thinking"%string, (356, 26352050697536)%Z);
  ("name"%string, (733, 26352050697536)%Z);
  ("story"%string, (522, 26034556110818)%Z);
  ("power"%string, (247, 26034556110818)%Z);
  ("stories"%string, (176, 25717061524101)%Z);
  ("help"%string, (497, 25399566937384)%Z);
  ("think"%string, (1262, 24764577763949)%Z);
  ("plastic"%string, (243, 24764577763949)%Z);
  ("call"%string, (472, 24764577763949)%Z);
  ("great"%string, (362, 22542115656928)%Z);
  ("happy"%string, (292, 22542115656928)%Z);
  ("whatever"%string, (244, 22542115656928)%Z);
  ("twenty"%string, (223, 22542115656928)%Z);
  ("fall"%string, (224, 22542115656928)%Z);
  ("ran"%string, (257, 22224621070211)%Z);
  ("late"%string, (358, 22224621070211)%Z);
  ("let"%string, (596, 21907126483493)%Z);
  ("meant"%string, (304, 21907126483493)%Z);
  ("language"%string, (133, 21907126483493)%Z);
  ("system"%string, (161, 21907126483493)%Z);
  ("lights"%string, (197, 21589631896776)%Z);
  ("form"%string, (144, 21272137310059)%Z);
  ("immediately"%string, (129, 20954642723342)%Z);
  ("care"%string, (337, 20319653549907)%Z);
  ("company"%string, (237, 20319653549907)%Z);
  ("happened"%string, (408, 20002158963190)%Z);
  ("taken"%string, (445, 19684664376472)%Z);
  ("sleep"%string, (278, 19684664376472)%Z);
  ("everywhere"%string, (101, 19684664376472)%Z);
  ("calls"%string, (154, 19684664376472)%Z);
  ("looks"%string, (254, 19367169789755)%Z);
  ("meeting"%string, (161, 19367169789755)%Z);
  ("falling"%string, (130, 19049675203038)%Z);
  ("completely"%string, (120, 19049675203038)%Z);
  ("helped"%string, (144, 18732180616320)%Z);
  ("street"%string, (344, 18414686029603)%Z);
  ("carefully"%string, (100, 18414686029603)%Z);
  ("year"%string, (629, 18097191442886)%Z);
  ("sleeping"%string, (131, 17779696856169)%Z);
  ("dropped"%string, (159, 17779696856169)%Z);
  ("names"%string, (152, 17779696856169)%Z);
  ("writing"%string, (143, 17779696856169)%Z);
  ("nice"%string, (262, 17462202269451)%Z);
  ("mostly"%string, (172, 17462202269451)%Z);
  ("broke"%string, (107, 17144707682734)%Z);
  ("heard"%string, (582, 16827213096017)%Z);
  ("college"%string, (221, 16827213096017)%Z);
  ("faces"%string, (157, 16827213096017)%Z);
  ("pressure"%string, (97, 16509718509299)%Z);
  ("calling"%string, (161, 16509718509299)%Z);
  ("per"%string, (240, 16509718509299)%Z);
  ("takes"%string, (203, 16509718509299)%Z);
  ("thousands"%string, (120, 16509718509299)%Z);
  ("heart"%string, (267, 16192223922582)%Z);
  ("control"%string, (115, 16192223922582)%Z);
  ("gold"%string, (105, 16192223922582)%Z);
  ("continued"%string, (175, 15557234749148)%Z);
  ("safe"%string, (117, 15239740162430)%Z);
  ("believed"%string, (174, 15239740162430)%Z);
  ("downstairs"%string, (75, 15239740162430)%Z);
  ("sun"%string, (256, 15239740162430)%Z);
  ("present"%string, (123, 14922245575713)%Z);
  ("research"%string, (111, 14604750988996)%Z);
  ("offered"%string, (134, 14604750988996)%Z);
  ("screen"%string, (174, 14604750988996)%Z);
  ("familiar"%string, (97, 14604750988996)%Z);
  ("store"%string, (149, 14287256402278)%Z);
  ("pressed"%string, (122, 14287256402278)%Z);
  ("perfectly"%string, (87, 14287256402278)%Z);
  ("approach"%string, (86, 14287256402278)%Z);
  ("important"%string, (177, 13969761815561)%Z);
  ("relationship"%string, (105, 13969761815561)%Z);
  ("sea"%string, (194, 13969761815561)%Z);
  ("believe"%string, (331, 13652267228844)%Z);
  ("everybody"%string, (94, 13652267228844)%Z);
  ("scene"%string, (129, 13652267228844)%Z);
  ("mean"%string, (494, 13652267228844)%Z);
  ("hers"%string, (94, 13652267228844)%Z);
  ("train"%string, (189, 13652267228844)%Z);
  ("bring"%string, (216, 13334772642126)%Z);
  ("approached"%string, (68, 13334772642126)%Z);
  ("similar"%string, (83, 13017278055409)%Z);
  ("letters"%string, (72, 13017278055409)%Z);
  ("visit"%string, (224, 12699783468692)%Z);
  ("training"%string, (70, 12699783468692)%Z);
  ("pay"%string, (171, 12382288881975)%Z);
  ("guests"%string, (85, 12382288881975)%Z);
  ("hat"%string, (96, 12382288881975)%Z);
  ("contact"%string, (79, 12382288881975)%Z);
  ("liked"%string, (303, 12064794295257)%Z);
  ("swimming"%string, (69, 12064794295257)%Z);
  ("likely"%string, (151, 12064794295257)%Z);
  ("allowed"%string, (128, 12064794295257)%Z);
  ("humans"%string, (72, 11747299708540)%Z);
  ("locked"%string, (76, 11747299708540)%Z);
  ("thoughts"%string, (115, 11747299708540)%Z);
  ("perfect"%string, (122, 11747299708540)%Z);
  ("hear"%string, (425, 11747299708540)%Z);
  ("thin"%string, (154, 11747299708540)%Z);
  ("visible"%string, (65, 11747299708540)%Z);
  ("happens"%string, (106, 11747299708540)%Z);
  ("oil"%string, (74, 11747299708540)%Z);
  ("hearing"%string, (80, 11747299708540)%Z);
  ("drop"%string, (89, 11429805121823)%Z);
  ("broken"%string, (130, 11429805121823)%Z);
  ("rock"%string, (95, 11429805121823)%Z);
  ("asleep"%string, (173, 11429805121823)%Z);
  ("visiting"%string, (57, 11429805121823)%Z);
  ("falls"%string, (73, 11429805121823)%Z);
  ("weight"%string, (110, 11429805121823)%Z);
  ("visitors"%string, (68, 11429805121823)%Z);
  ("harder"%string, (66, 11112310535105)%Z);
  ("meaning"%string, (90, 11112310535105)%Z);
  ("thousand"%string, (304, 11112310535105)%Z);
  ("written"%string, (158, 11112310535105)%Z);
  ("means"%string, (145, 11112310535105)%Z);
  ("happen"%string, (181, 10794815948388)%Z);
  ("companies"%string, (60, 10794815948388)%Z);
  ("letter"%string, (121, 10477321361671)%Z);
  ("career"%string, (85, 10477321361671)%Z);
  ("visited"%string, (131, 10477321361671)%Z);
  ("confused"%string, (66, 10477321361671)%Z);
  ("meetings"%string, (46, 10477321361671)%Z);
  ("offer"%string, (113, 10477321361671)%Z);
  ("stretched"%string, (61, 10477321361671)%Z);
  ("press"%string, (91, 10477321361671)%Z);
  ("happiness"%string, (54, 10159826774953)%Z);
  ("increasingly"%string, (65, 10159826774953)%Z);
  ("hardly"%string, (129, 10159826774953)%Z);
  ("appear"%string, (94, 10159826774953)%Z);
  ("stick"%string, (64, 9842332188236)%Z);
  ("ago"%string, (364, 9842332188236)%Z);
  ("downtown"%string, (44, 9842332188236)%Z);
  ("contained"%string, (54, 9842332188236)%Z);
  ("deal"%string, (133, 9524837601519)%Z);
  ("rest"%string, (301, 9524837601519)%Z);
  ("impossible"%string, (111, 9524837601519)%Z);
  ("innocent"%string, (53, 9524837601519)%Z);
  ("confirmed"%string, (46, 9524837601519)%Z);
  ("formed"%string, (47, 9524837601519)%Z);
  ("joined"%string, (98, 9207343014802)%Z);
  ("mad"%string, (64, 9207343014802)%Z);
  ("trapped"%string, (52, 9207343014802)%Z);
  ("mistake"%string, (83, 9207343014802)%Z);
  ("branches"%string, (62, 9207343014802)%Z);
  ("presence"%string, (98, 9207343014802)%Z);
  ("computer"%string, (107, 9207343014802)%Z);
  ("complex"%string, (59, 9207343014802)%Z);
  ("heads"%string, (103, 9207343014802)%Z);
  ("overhead"%string, (36, 9207343014802)%Z);
  ("race"%string, (70, 9207343014802)%Z);
  ("sand"%string, (93, 8889848428084)%Z);
  ("greater"%string, (46, 8889848428084)%Z);
  ("streets"%string, (119, 8889848428084)%Z);
  ("systems"%string, (40, 8889848428084)%Z);
  ("lightly"%string, (41, 8889848428084)%Z);
  ("presented"%string, (47, 8572353841367)%Z);
  ("shining"%string, (37, 8572353841367)%Z);
  ("entrance"%string, (64, 8572353841367)%Z);
  ("confidence"%string, (42, 8572353841367)%Z);
  ("forms"%string, (46, 8572353841367)%Z);
  ("childhood"%string, (102, 8572353841367)%Z);
  ("screaming"%string, (56, 8572353841367)%Z);
  ("researchers"%string, (58, 8572353841367)%Z);
  ("meet"%string, (184, 8254859254650)%Z);
  ("pressing"%string, (52, 8254859254650)%Z);
  ("strength"%string, (55, 8254859254650)%Z);
  ("vision"%string, (85, 8254859254650)%Z);
  ("relatives"%string, (45, 8254859254650)%Z);
  ("issues"%string, (41, 8254859254650)%Z);
  ("letting"%string, (68, 7937364667932)%Z);
  ("bringing"%string, (65, 7937364667932)%Z);
  ("ship"%string, (78, 7937364667932)%Z);
  ("write"%string, (148, 7937364667932)%Z);
  ("risk"%string, (75, 7937364667932)%Z);
  ("strike"%string, (45, 7937364667932)%Z);
  ("account"%string, (92, 7937364667932)%Z);
  ("drops"%string, (37, 7937364667932)%Z);
  ("sticks"%string, (42, 7937364667932)%Z);
  ("visits"%string, (33, 7937364667932)%Z);
  ("families"%string, (66, 7619870081215)%Z);
  ("guilty"%string, (67, 7619870081215)%Z);
  ("helping"%string, (50, 7619870081215)%Z);
  ("careful"%string, (73, 7619870081215)%Z);
  ("cared"%string, (47, 7619870081215)%Z);
  ("search"%string, (67, 7619870081215)%Z);
  ("appearance"%string, (45, 7619870081215)%Z);
  ("daily"%string, (44, 7619870081215)%Z);
  ("former"%string, (206, 7619870081215)%Z);
  ("appears"%string, (44, 7619870081215)%Z);
  ("related"%string, (44, 7619870081215)%Z);
  ("collected"%string, (48, 7619870081215)%Z);
  ("complete"%string, (53, 7619870081215)%Z);
  ("dropping"%string, (43, 7619870081215)%Z);
  ("collection"%string, (53, 7619870081215)%Z);
  ("hated"%string, (90, 7302375494498)%Z);
  ("happening"%string, (106, 7302375494498)%Z);
  ("complicated"%string, (54, 7302375494498)%Z);
  ("relations"%string, (32, 7302375494498)%Z);
  ("contract"%string, (48, 7302375494498)%Z);
  ("rocks"%string, (58, 6984880907781)%Z);
  ("swim"%string, (58, 6984880907781)%Z);
  ("spilled"%string, (32, 6984880907781)%Z);
  ("striking"%string, (35, 6984880907781)%Z);
  ("therapy"%string, (36, 6984880907781)%Z);
  ("collapsed"%string, (38, 6984880907781)%Z);
  ("thinks"%string, (187, 6984880907781)%Z);
  ("offers"%string, (36, 6984880907781)%Z);
  ("safely"%string, (26, 6984880907781)%Z);
  ("safety"%string, (49, 6984880907781)%Z);
  ("stores"%string, (35, 6984880907781)%Z);
  ("performed"%string, (42, 6984880907781)%Z);
  ("trained"%string, (35, 6667386321063)%Z);
  ("happily"%string, (30, 6667386321063)%Z);
  ("helps"%string, (34, 6667386321063)%Z);
  ("screamed"%string, (46, 6667386321063)%Z);
  ("performance"%string, (39, 6667386321063)%Z);
  ("hate"%string, (65, 6667386321063)%Z);
  ("powerful"%string, (62, 6667386321063)%Z);
  ("writer"%string, (71, 6667386321063)%Z);
  ("offering"%string, (55, 6667386321063)%Z);
  ("homeless"%string, (35, 6667386321063)%Z);
  ("content"%string, (30, 6667386321063)%Z);
  ("sticking"%string, (34, 6667386321063)%Z);
  ("searching"%string, (51, 6667386321063)%Z);
  ("faced"%string, (40, 6667386321063)%Z);
  ("conflict"%string, (37, 6667386321063)%Z);
  ("yours"%string, (44, 6349891734346)%Z);
  ("homes"%string, (42, 6349891734346)%Z);
  ("headed"%string, (75, 6349891734346)%Z);
  ("limbs"%string, (38, 6349891734346)%Z);
  ("relaxed"%string, (35, 6349891734346)%Z);
  ("belief"%string, (36, 6349891734346)%Z);
  ("restaurant"%string, (112, 6349891734346)%Z);
  ("resembled"%string, (32, 6349891734346)%Z);
  ("guest"%string, (70, 6349891734346)%Z);
  ("justice"%string, (31, 6349891734346)%Z);
  ("heading"%string, (39, 6349891734346)%Z);
  ("colleagues"%string, (78, 6349891734346)%Z);
  ("appeal"%string, (33, 6349891734346)%Z);
  ("ships"%string, (31, 6349891734346)%Z);
  ("strip"%string, (40, 6349891734346)%Z);
  ("resting"%string, (33, 6349891734346)%Z);
  ("relationships"%string, (26, 6349891734346)%Z);
  ("lot"%string, (435, 6032397147629)%Z);
  ("lately"%string, (24, 6032397147629)%Z);
  ("avoided"%string, (35, 6032397147629)%Z);
  ("stretch"%string, (39, 6032397147629)%Z);
  ("lighting"%string, (28, 6032397147629)%Z);
  ("affection"%string, (22, 6032397147629)%Z);
  ("guilt"%string, (36, 6032397147629)%Z);
  ("contains"%string, (37, 6032397147629)%Z);
  ("approaching"%string, (35, 6032397147629)%Z);
  ("wandering"%string, (31, 6032397147629)%Z);
  ("scenes"%string, (30, 6032397147629)%Z);
  ("overnight"%string, (26, 6032397147629)%Z);
  ("rested"%string, (32, 6032397147629)%Z);
  ("issued"%string, (27, 6032397147629)%Z);
  ("though"%string, (1207, 5714902560911)%Z);
  ("fallen"%string, (96, 5714902560911)%Z);
  ("prescribed"%string, (29, 5714902560911)%Z);
  ("insurance"%string, (51, 5714902560911)%Z);
  ("indeed"%string, (53, 5714902560911)%Z);
  ("wandered"%string, (43, 5714902560911)%Z);
  ("continues"%string, (32, 5714902560911)%Z);
  ("relative"%string, (31, 5714902560911)%Z);
  ("immediate"%string, (31, 5714902560911)%Z);
  ("lock"%string, (58, 5714902560911)%Z);
  ("shiny"%string, (39, 5714902560911)%Z);
  ("accounts"%string, (35, 5714902560911)%Z);
  ("containing"%string, (24, 5714902560911)%Z);
  ("pipe"%string, (51, 5714902560911)%Z);
  ("grave"%string, (53, 5714902560911)%Z);
  ("allow"%string, (75, 5714902560911)%Z);
  ("issue"%string, (57, 5714902560911)%Z);
  ("core"%string, (40, 5714902560911)%Z);
  ("overcome"%string, (30, 5714902560911)%Z);
  ("compared"%string, (28, 5714902560911)%Z);
  ("risks"%string, (30, 5714902560911)%Z);
  ("lasted"%string, (33, 5714902560911)%Z);
  ("humanity"%string, (32, 5714902560911)%Z);
  ("willing"%string, (46, 5397407974194)%Z);
  ("lighter"%string, (49, 5397407974194)%Z);
  ("writers"%string, (26, 5397407974194)%Z);
  ("random"%string, (32, 5397407974194)%Z);
  ("confusion"%string, (28, 5397407974194)%Z);
  ("screens"%string, (27, 5397407974194)%Z);
  ("scent"%string, (29, 5397407974194)%Z);
  ("thanks"%string, (68, 5397407974194)%Z);
  ("restaurants"%string, (27, 5397407974194)%Z);
  ("stripped"%string, (28, 5397407974194)%Z);
  ("competition"%string, (29, 5397407974194)%Z);
  ("alike"%string, (17, 5397407974194)%Z);
  ("thank"%string, (72, 5397407974194)%Z);
  ("continue"%string, (56, 5397407974194)%Z);
  ("affected"%string, (29, 5397407974194)%Z);
  ("string"%string, (35, 5397407974194)%Z);
  ("operation"%string, (37, 5397407974194)%Z);
  ("childish"%string, (19, 5079913387477)%Z);
  ("scream"%string, (41, 5079913387477)%Z);
  ("entry"%string, (28, 5079913387477)%Z);
  ("complained"%string, (36, 5079913387477)%Z);
  ("trail"%string, (55, 5079913387477)%Z);
  ("gravel"%string, (36, 5079913387477)%Z);
  ("sticky"%string, (24, 5079913387477)%Z);
  ("branch"%string, (30, 5079913387477)%Z);
  ("hearts"%string, (27, 5079913387477)%Z);
  ("join"%string, (83, 5079913387477)%Z);
  ("perfume"%string, (22, 5079913387477)%Z);
  ("pounds"%string, (42, 5079913387477)%Z);
  ("apologized"%string, (30, 5079913387477)%Z);
  ("trailing"%string, (21, 5079913387477)%Z);
  ("confident"%string, (30, 5079913387477)%Z);
  ("increased"%string, (25, 5079913387477)%Z);
  ("examined"%string, (34, 5079913387477)%Z);
  ("incredible"%string, (25, 5079913387477)%Z);
  ("ocean"%string, (98, 4762418800759)%Z);
  ("example"%string, (98, 4762418800759)%Z);
  ("stream"%string, (44, 4762418800759)%Z);
  ("collapse"%string, (25, 4762418800759)%Z);
  ("caring"%string, (21, 4762418800759)%Z);
  ("likes"%string, (56, 4762418800759)%Z);
  ("weighed"%string, (24, 4762418800759)%Z);
  ("screams"%string, (30, 4762418800759)%Z);
  ("mistakes"%string, (22, 4762418800759)%Z);
  ("operated"%string, (20, 4762418800759)%Z);
  ("affect"%string, (25, 4762418800759)%Z);
  ("stored"%string, (24, 4762418800759)%Z);
  ("preserved"%string, (25, 4762418800759)%Z);
  ("conference"%string, (57, 4762418800759)%Z);
  ("streaming"%string, (22, 4762418800759)%Z);
  ("collecting"%string, (30, 4762418800759)%Z);
  ("bombs"%string, (17, 4762418800759)%Z);
  ("approved"%string, (28, 4762418800759)%Z);
  ("scenario"%string, (21, 4762418800759)%Z);
  ("stress"%string, (27, 4762418800759)%Z);
  ("completed"%string, (20, 4762418800759)%Z);
  ("hives"%string, (31, 4762418800759)%Z);
  ("guess"%string, (143, 4444924214042)%Z);
  ("golden"%string, (50, 4444924214042)%Z);
  ("joining"%string, (22, 4444924214042)%Z);
  ("mist"%string, (23, 4444924214042)%Z);
  ("believing"%string, (25, 4444924214042)%Z);
  ("limb"%string, (23, 4444924214042)%Z);
  ("appropriate"%string, (23, 4444924214042)%Z);
  ("striped"%string, (23, 4444924214042)%Z);
  ("performing"%string, (22, 4444924214042)%Z);
  ("formal"%string, (29, 4444924214042)%Z);
  ("compassion"%string, (16, 4444924214042)%Z);
  ("bomb"%string, (39, 4444924214042)%Z);
  ("confession"%string, (32, 4444924214042)%Z);
  ("presents"%string, (22, 4444924214042)%Z);
  ("storm"%string, (72, 4444924214042)%Z);
  ("complain"%string, (24, 4444924214042)%Z);
  ("overwhelmed"%string, (21, 4444924214042)%Z);
  ("fame"%string, (21, 4444924214042)%Z);
  ("dealt"%string, (19, 4444924214042)%Z);
  ("forming"%string, (17, 4444924214042)%Z);
  ("appealing"%string, (14, 4444924214042)%Z);
  ("storage"%string, (29, 4127429627325)%Z);
  ("cord"%string, (25, 4127429627325)%Z);
  ("examples"%string, (16, 4127429627325)%Z);
  ("incredibly"%string, (29, 4127429627325)%Z);
  ("lightning"%string, (26, 4127429627325)%Z);
  ("nicer"%string, (15, 4127429627325)%Z);
  ("overwhelming"%string, (21, 4127429627325)%Z);
  ("operating"%string, (25, 4127429627325)%Z);
  ("sandwich"%string, (27, 4127429627325)%Z);
  ("container"%string, (22, 4127429627325)%Z);
  ("strips"%string, (13, 4127429627325)%Z);
  ("king"%string, (60, 4127429627325)%Z);
  ("stretches"%string, (20, 4127429627325)%Z);
  ("resemble"%string, (17, 4127429627325)%Z);
  ("echo"%string, (22, 4127429627325)%Z);
  ("relatively"%string, (25, 4127429627325)%Z);
  ("bee"%string, (21, 4127429627325)%Z);
  ("contracts"%string, (22, 4127429627325)%Z);
  ("according"%string, (89, 3809935040608)%Z);
  ("homework"%string, (20, 3809935040608)%Z);
  ("pounding"%string, (23, 3809935040608)%Z);
  ("stretching"%string, (23, 3809935040608)%Z);
  ("lap"%string, (98, 3809935040608)%Z);
  ("confessed"%string, (29, 3809935040608)%Z);
  ("happier"%string, (21, 3809935040608)%Z);
  ("ripped"%string, (22, 3809935040608)%Z);
  ("independent"%string, (23, 3809935040608)%Z);
  ("sleeve"%string, (31, 3809935040608)%Z);
  ("perform"%string, (34, 3809935040608)%Z);
  ("twenties"%string, (36, 3809935040608)%Z);
  ("obscure"%string, (25, 3809935040608)%Z);
  ("allowing"%string, (27, 3809935040608)%Z);
  ("languages"%string, (23, 3809935040608)%Z);
  ("colleges"%string, (28, 3809935040608)%Z);
  ("collar"%string, (28, 3809935040608)%Z);
  ("overlooked"%string, (14, 3809935040608)%Z);
  ("compensation"%string, (28, 3809935040608)%Z);
  ("echoed"%string, (19, 3809935040608)%Z);
  ("brand"%string, (19, 3809935040608)%Z);
  ("apology"%string, (30, 3809935040608)%Z);
  ("gravity"%string, (19, 3809935040608)%Z);
  ("powers"%string, (14, 3809935040608)%Z);
  ("operations"%string, (15, 3809935040608)%Z);
  ("contacted"%string, (19, 3809935040608)%Z);
  ("contain"%string, (20, 3809935040608)%Z);
  ("streams"%string, (14, 3809935040608)%Z);
  ("hive"%string, (22, 3809935040608)%Z);
  ("negative"%string, (19, 3492440453890)%Z);
  ("downward"%string, (13, 3492440453890)%Z);
  ("contemporary"%string, (12, 3492440453890)%Z);
  ("portrait"%string, (29, 3492440453890)%Z);
  ("wander"%string, (20, 3492440453890)%Z);
  ("appreciate"%string, (33, 3492440453890)%Z);
  ("thanked"%string, (21, 3492440453890)%Z);
  ("offense"%string, (25, 3492440453890)%Z);
  ("computers"%string, (14, 3492440453890)%Z);
  ("searched"%string, (44, 3492440453890)%Z);
  ("represent"%string, (26, 3492440453890)%Z);
  ("importance"%string, (25, 3492440453890)%Z);
  ("companion"%string, (15, 3492440453890)%Z);
  ("scenarios"%string, (12, 3492440453890)%Z);
  ("screwed"%string, (14, 3492440453890)%Z);
  ("offended"%string, (16, 3492440453890)%Z);
  ("strikes"%string, (17, 3492440453890)%Z);
  ("immense"%string, (13, 3492440453890)%Z);
  ("formerly"%string, (16, 3492440453890)%Z);
  ("reserves"%string, (14, 3492440453890)%Z);
  ("homemade"%string, (15, 3492440453890)%Z);
  ("traps"%string, (19, 3492440453890)%Z);
  ("sleepy"%string, (18, 3492440453890)%Z);
  ("controlling"%string, (13, 3492440453890)%Z);
  ("preserve"%string, (29, 3492440453890)%Z);
  ("helmet"%string, (33, 3492440453890)%Z);
  ("collectors"%string, (11, 3492440453890)%Z);
  ("sandals"%string, (17, 3492440453890)%Z);
  ("rests"%string, (11, 3492440453890)%Z);
  ("spilling"%string, (17, 3492440453890)%Z);
  ("represented"%string, (17, 3492440453890)%Z);
  ("perfection"%string, (14, 3492440453890)%Z);
  ("complaint"%string, (26, 3492440453890)%Z);
  ("rocked"%string, (17, 3492440453890)%Z);
  ("reserve"%string, (20, 3492440453890)%Z);
  ("composed"%string, (16, 3492440453890)%Z);
  ("approval"%string, (19, 3492440453890)%Z);
  ("restless"%string, (13, 3492440453890)%Z);
  ("champagne"%string, (21, 3492440453890)%Z);
  ("similarly"%string, (17, 3492440453890)%Z);
  ("strings"%string, (14, 3492440453890)%Z);
  ("deals"%string, (13, 3492440453890)%Z);
  ("increase"%string, (25, 3492440453890)%Z);
  ("rival"%string, (12, 3492440453890)%Z);
  ("operators"%string, (19, 3492440453890)%Z);
  ("shine"%string, (15, 3174945867173)%Z);
  ("careers"%string, (13, 3174945867173)%Z);
  ("meaningful"%string, (20, 3174945867173)%Z);
  ("index"%string, (19, 3174945867173)%Z);
  ("trap"%string, (26, 3174945867173)%Z);
  ("confusing"%string, (20, 3174945867173)%Z);
  ("confronted"%string, (14, 3174945867173)%Z);
  ("theme"%string, (20, 3174945867173)%Z);
  ("context"%string, (23, 3174945867173)%Z);
  ("believes"%string, (49, 3174945867173)%Z);
  ("streak"%string, (15, 3174945867173)%Z);
  ("strictly"%string, (22, 3174945867173)%Z);
  ("locks"%string, (14, 3174945867173)%Z);
  ("champion"%string, (14, 3174945867173)%Z);
  ("contracted"%string, (14, 3174945867173)%Z);
  ("writes"%string, (64, 3174945867173)%Z);
  ("helplessly"%string, (12, 3174945867173)%Z);
  ("stride"%string, (12, 3174945867173)%Z);
  ("contemplating"%string, (12, 3174945867173)%Z);
  ("therapist"%string, (84, 3174945867173)%Z);
  ("compound"%string, (18, 3174945867173)%Z);
  ("chamber"%string, (14, 3174945867173)%Z);
  ("complaints"%string, (12, 3174945867173)%Z);
  ("contributed"%string, (14, 3174945867173)%Z);
  ("greasy"%string, (16, 3174945867173)%Z);
  ("dealer"%string, (22, 3174945867173)%Z);
  ("prescription"%string, (15, 3174945867173)%Z);
  ("trains"%string, (20, 3174945867173)%Z);
  ("trailer"%string, (34, 3174945867173)%Z);
  ("thoughtful"%string, (16, 3174945867173)%Z);
  ("randomly"%string, (10, 3174945867173)%Z);
  ("sandwiches"%string, (21, 3174945867173)%Z);
  ("avoiding"%string, (22, 3174945867173)%Z);
  ("helpful"%string, (18, 3174945867173)%Z);
  ("rocking"%string, (13, 3174945867173)%Z);
  ("ritual"%string, (18, 3174945867173)%Z);
  ("reserved"%string, (14, 3174945867173)%Z);
  ("chilled"%string, (11, 3174945867173)%Z);
  ("controlled"%string, (15, 3174945867173)%Z);
  ("imposed"%string, (12, 3174945867173)%Z);
  ("approaches"%string, (16, 3174945867173)%Z);
  ("examination"%string, (19, 3174945867173)%Z);
  ("thinning"%string, (12, 3174945867173)%Z);
  ("innocence"%string, (15, 3174945867173)%Z);
  ("viral"%string, (14, 3174945867173)%Z);
  ("imported"%string, (12, 3174945867173)%Z);
  ("stripes"%string, (13, 3174945867173)%Z);
  ("risky"%string, (13, 3174945867173)%Z);
  ("headquarters"%string, (27, 3174945867173)%Z);
  ("app"%string, (24, 2857451280456)%Z);
  ("dealing"%string, (18, 2857451280456)%Z);
  ("races"%string, (16, 2857451280456)%Z);
  ("hum"%string, (16, 2857451280456)%Z);
  ("guessed"%string, (37, 2857451280456)%Z);
  ("represents"%string, (15, 2857451280456)%Z);
  ("shipped"%string, (12, 2857451280456)%Z);
  ("thinner"%string, (16, 2857451280456)%Z);
  ("sleeves"%string, (22, 2857451280456)%Z);
  ("pounded"%string, (21, 2857451280456)%Z);
  ("joint"%string, (17, 2857451280456)%Z);
  ("headache"%string, (24, 2857451280456)%Z);
  ("formation"%string, (15, 2857451280456)%Z);
  ("headlights"%string, (25, 2857451280456)%Z);
  ("resembles"%string, (13, 2857451280456)%Z);
  ("continuously"%string, (10, 2857451280456)%Z);
  ("strict"%string, (20, 2857451280456)%Z);
  ("apologize"%string, (28, 2857451280456)%Z);
  ("strewn"%string, (10, 2857451280456)%Z);
  ("accompanied"%string, (26, 2857451280456)%Z);
  ("lettuce"%string, (15, 2857451280456)%Z);
  ("veil"%string, (16, 2857451280456)%Z);
  ("overlooking"%string, (18, 2857451280456)%Z);
  ("restored"%string, (13, 2857451280456)%Z);
  ("chill"%string, (23, 2857451280456)%Z);
  ("obscured"%string, (14, 2857451280456)%Z);
  ("allows"%string, (17, 2857451280456)%Z);
  ("confined"%string, (11, 2857451280456)%Z);
  ("skeptical"%string, (13, 2857451280456)%Z);
  ("mistaken"%string, (20, 2857451280456)%Z);
  ("worlds"%string, (11, 2857451280456)%Z);
  ("appearances"%string, (12, 2857451280456)%Z);
  ("thoughtfully"%string, (9, 2857451280456)%Z);
  ("appearing"%string, (17, 2857451280456)%Z);
  ("wit"%string, (10, 2857451280456)%Z);
  ("contacts"%string, (9, 2857451280456)%Z);
  ("robbed"%string, (16, 2857451280456)%Z);
  ("robbery"%string, (15, 2857451280456)%Z);
  ("careless"%string, (11, 2857451280456)%Z);
  ("shipping"%string, (12, 2857451280456)%Z);
  ("comparisons"%string, (9, 2857451280456)%Z);
  ("approximately"%string, (11, 2857451280456)%Z);
  ("compromised"%string, (10, 2857451280456)%Z);
  ("withdrawal"%string, (9, 2857451280456)%Z);
  ("relax"%string, (26, 2539956693738)%Z);
  ("least"%string, (447, 2539956693738)%Z);
  ("brings"%string, (30, 2539956693738)%Z);
  ("hears"%string, (44, 2539956693738)%Z);
  ("insufficient"%string, (9, 2539956693738)%Z);
  ("confirm"%string, (26, 2539956693738)%Z);
  ("independence"%string, (11, 2539956693738)%Z);
  ("stormed"%string, (10, 2539956693738)%Z);
  ("headphones"%string, (16, 2539956693738)%Z);
  ("withdrew"%string, (19, 2539956693738)%Z);
  ("restrained"%string, (8, 2539956693738)%Z);
  ("relation"%string, (18, 2539956693738)%Z);
  ("companions"%string, (10, 2539956693738)%Z);
  ("rid"%string, (41, 2539956693738)%Z);
  ("oversized"%string, (18, 2539956693738)%Z);
  ("colleague"%string, (39, 2539956693738)%Z);
  ("traits"%string, (10, 2539956693738)%Z);
  ("confronting"%string, (11, 2539956693738)%Z);
  ("leash"%string, (27, 2539956693738)%Z);
  ("ranch"%string, (20, 2539956693738)%Z);
  ("overly"%string, (11, 2539956693738)%Z);
  ("containers"%string, (13, 2539956693738)%Z);
  ("brands"%string, (10, 2539956693738)%Z);
  ("reproach"%string, (8, 2539956693738)%Z);
  ("bombing"%string, (17, 2539956693738)%Z);
  ("complaining"%string, (15, 2539956693738)%Z);
  ("contempt"%string, (11, 2539956693738)%Z);
  ("contribute"%string, (14, 2539956693738)%Z);
  ("contents"%string, (28, 2539956693738)%Z);
  ("appetite"%string, (11, 2539956693738)%Z);
  ("pound"%string, (13, 2539956693738)%Z);
  ("therapists"%string, (12, 2539956693738)%Z);
  ("competence"%string, (10, 2539956693738)%Z);
  ("screw"%string, (16, 2539956693738)%Z);
  ("visitor"%string, (15, 2539956693738)%Z);
  ("screening"%string, (15, 2539956693738)%Z);
  ("stinking"%string, (10, 2539956693738)%Z);
  ("sleepless"%string, (8, 2539956693738)%Z);
  ("stressful"%string, (10, 2539956693738)%Z);
  ("lightness"%string, (11, 2539956693738)%Z);
  ("justification"%string, (8, 2539956693738)%Z);
  ("presently"%string, (10, 2539956693738)%Z);
  ("whatsoever"%string, (8, 2539956693738)%Z);
  ("restricted"%string, (8, 2539956693738)%Z);
  ("conferences"%string, (12, 2539956693738)%Z);
  ("controversial"%string, (10, 2539956693738)%Z);
  ("streaked"%string, (10, 2539956693738)%Z);
  ("willow"%string, (10, 2539956693738)%Z);
  ("streaks"%string, (11, 2539956693738)%Z);
  ("meaningless"%string, (11, 2539956693738)%Z);
  ("portion"%string, (13, 2539956693738)%Z);
  ("plaster"%string, (17, 2539956693738)%Z);
  ("competing"%string, (9, 2539956693738)%Z);
  ("compelling"%string, (9, 2539956693738)%Z);
  ("scents"%string, (9, 2539956693738)%Z);
  ("justified"%string, (12, 2539956693738)%Z);
  ("increasing"%string, (14, 2539956693738)%Z);
  ("indefinitely"%string, (8, 2539956693738)%Z);
  ("controversy"%string, (17, 2539956693738)%Z);
  ("rip"%string, (13, 2222462107021)%Z);
  ("trails"%string, (17, 2222462107021)%Z);
  ("implied"%string, (9, 2222462107021)%Z);
  ("researcher"%string, (20, 2222462107021)%Z);
  ("accompanying"%string, (12, 2222462107021)%Z);
  ("cares"%string, (23, 2222462107021)%Z);
  ("accounting"%string, (11, 2222462107021)%Z);
  ("resented"%string, (12, 2222462107021)%Z);
  ("cluster"%string, (24, 2222462107021)%Z);
  ("safer"%string, (8, 2222462107021)%Z);
  ("bombed"%string, (8, 2222462107021)%Z);
  ("stake"%string, (19, 2222462107021)%Z);
  ("helpless"%string, (15, 2222462107021)%Z);
  ("resentment"%string, (12, 2222462107021)%Z);
  ("weigh"%string, (10, 2222462107021)%Z);
  ("overgrown"%string, (9, 2222462107021)%Z);
  ("sandbags"%string, (11, 2222462107021)%Z);
  ("gravy"%string, (7, 2222462107021)%Z);
  ("examining"%string, (10, 2222462107021)%Z);
  ("collector"%string, (16, 2222462107021)%Z);
  ("dealers"%string, (15, 2222462107021)%Z);
  ("insults"%string, (7, 2222462107021)%Z);
  ("impossibly"%string, (9, 2222462107021)%Z);
  ("contest"%string, (10, 2222462107021)%Z);
  ("striving"%string, (8, 2222462107021)%Z);
  ("stickers"%string, (9, 2222462107021)%Z);
  ("therefore"%string, (44, 2222462107021)%Z);
  ("downhill"%string, (9, 2222462107021)%Z);
  ("president"%string, (19, 2222462107021)%Z);
  ("yearning"%string, (10, 2222462107021)%Z);
  ("rituals"%string, (10, 2222462107021)%Z);
  ("formally"%string, (7, 2222462107021)%Z);
  ("accomplished"%string, (12, 2222462107021)%Z);
  ("reservation"%string, (12, 2222462107021)%Z);
  ("worldly"%string, (10, 2222462107021)%Z);
  ("compressed"%string, (8, 2222462107021)%Z);
  ("obscene"%string, (9, 2222462107021)%Z);
  ("presumably"%string, (25, 2222462107021)%Z);
  ("confided"%string, (18, 2222462107021)%Z);
  ("accounted"%string, (8, 2222462107021)%Z);
  ("resemblance"%string, (9, 2222462107021)%Z);
  ("spill"%string, (10, 2222462107021)%Z);
  ("overweight"%string, (7, 2222462107021)%Z);
  ("streamed"%string, (7, 2222462107021)%Z);
  ("relates"%string, (11, 2222462107021)%Z);
  ("compromise"%string, (11, 2222462107021)%Z);
  ("formidable"%string, (10, 2222462107021)%Z);
  ("bra"%string, (15, 2222462107021)%Z);
  ("rippling"%string, (9, 2222462107021)%Z);
  ("offensive"%string, (8, 2222462107021)%Z);
  ("compare"%string, (14, 2222462107021)%Z);
  ("overheard"%string, (12, 2222462107021)%Z);
  ("affects"%string, (7, 2222462107021)%Z);
  ("compelled"%string, (11, 2222462107021)%Z);
  ("overcoat"%string, (10, 2222462107021)%Z);
  ("comprehension"%string, (8, 2222462107021)%Z);
  ("everyday"%string, (10, 2222462107021)%Z);
  ("opera"%string, (21, 2222462107021)%Z);
  ("nicely"%string, (8, 2222462107021)%Z);
  ("component"%string, (8, 2222462107021)%Z);
  ("pipes"%string, (11, 2222462107021)%Z);
  ("compounds"%string, (8, 2222462107021)%Z);
  ("representative"%string, (15, 2222462107021)%Z);
  ("collapsing"%string, (8, 2222462107021)%Z);
  ("homeland"%string, (10, 2222462107021)%Z);
  ("hearings"%string, (10, 2222462107021)%Z);
  ("presentation"%string, (22, 1904967520304)%Z);
  ("weighing"%string, (11, 1904967520304)%Z);
  ("sting"%string, (13, 1904967520304)%Z);
  ("stripe"%string, (6, 1904967520304)%Z);
  ("representation"%string, (8, 1904967520304)%Z);
  ("rays"%string, (7, 1904967520304)%Z);
  ("pressures"%string, (8, 1904967520304)%Z);
  ("inert"%string, (7, 1904967520304)%Z);
  ("resentful"%string, (8, 1904967520304)%Z);
  ("heartbeat"%string, (10, 1904967520304)%Z);
  ("appreciated"%string, (12, 1904967520304)%Z);
  ("overflowing"%string, (7, 1904967520304)%Z);
  ("collect"%string, (30, 1904967520304)%Z);
  ("raced"%string, (21, 1904967520304)%Z);
  ("mania"%string, (6, 1904967520304)%Z);
  ("exam"%string, (10, 1904967520304)%Z);
  ("greatest"%string, (25, 1904967520304)%Z);
  ("overseas"%string, (6, 1904967520304)%Z);
  ("slate"%string, (9, 1904967520304)%Z);
  ("stint"%string, (7, 1904967520304)%Z);
  ("chilly"%string, (21, 1904967520304)%Z);
  ("mandatory"%string, (8, 1904967520304)%Z);
  ("approve"%string, (9, 1904967520304)%Z);
  ("preschool"%string, (12, 1904967520304)%Z);
  ("insulting"%string, (7, 1904967520304)%Z);
  ("withheld"%string, (8, 1904967520304)%Z);
  ("hardened"%string, (8, 1904967520304)%Z);
  ("collective"%string, (23, 1904967520304)%Z);
  ("helplessness"%string, (14, 1904967520304)%Z);
  ("visions"%string, (6, 1904967520304)%Z);
  ("sleeps"%string, (8, 1904967520304)%Z);
  ("hates"%string, (18, 1904967520304)%Z);
  ("inexplicable"%string, (8, 1904967520304)%Z);
  ("prestigious"%string, (10, 1904967520304)%Z);
  ("systematically"%string, (6, 1904967520304)%Z);
  ("compliment"%string, (10, 1904967520304)%Z);
  ("thatched"%string, (14, 1904967520304)%Z);
  ("risking"%string, (8, 1904967520304)%Z);
  ("trailed"%string, (10, 1904967520304)%Z);
  ("sticker"%string, (13, 1904967520304)%Z);
  ("thinned"%string, (7, 1904967520304)%Z);
  ("stakes"%string, (9, 1904967520304)%Z);
  ("lease"%string, (11, 1904967520304)%Z);
  ("compliance"%string, (7, 1904967520304)%Z);
  ("oceans"%string, (20, 1904967520304)%Z);
  ("port"%string, (14, 1904967520304)%Z);
  ("prescriptions"%string, (7, 1904967520304)%Z);
  ("echoes"%string, (7, 1904967520304)%Z);
  ("callers"%string, (9, 1904967520304)%Z);
  ("complimentary"%string, (6, 1904967520304)%Z);
  ("confrontation"%string, (8, 1904967520304)%Z);
  ("contradiction"%string, (6, 1904967520304)%Z);
  ("contaminated"%string, (8, 1904967520304)%Z);
  ("innocuous"%string, (7, 1904967520304)%Z);
  ("stressed"%string, (13, 1904967520304)%Z);
  ("meets"%string, (14, 1904967520304)%Z);
  ("withered"%string, (9, 1904967520304)%Z);
  ("complications"%string, (8, 1904967520304)%Z);
  ("yourselves"%string, (6, 1904967520304)%Z);
  ("accountant"%string, (10, 1904967520304)%Z);
  ("compete"%string, (10, 1904967520304)%Z);
  ("formula"%string, (10, 1904967520304)%Z);
  ("continuing"%string, (8, 1904967520304)%Z);
  ("kingdom"%string, (9, 1904967520304)%Z);
  ("skeptically"%string, (6, 1904967520304)%Z);
  ("graves"%string, (20, 1904967520304)%Z);
  ("representatives"%string, (15, 1904967520304)%Z);
  ("complexity"%string, (11, 1904967520304)%Z);
  ("implications"%string, (6, 1904967520304)%Z);
  ("reproduced"%string, (6, 1904967520304)%Z);
  ("reproducing"%string, (7, 1904967520304)%Z);
  ("risked"%string, (7, 1904967520304)%Z);
  ("innovations"%string, (6, 1904967520304)%Z);
  ("swimmers"%string, (6, 1587472933586)%Z);
  ("swimmer"%string, (8, 1587472933586)%Z);
  ("sleek"%string, (13, 1587472933586)%Z);
  ("withdrawn"%string, (9, 1587472933586)%Z);
  ("caregiver"%string, (37, 1587472933586)%Z);
  ("resembling"%string, (6, 1587472933586)%Z);
  ("scented"%string, (7, 1587472933586)%Z);
  ("ripping"%string, (11, 1587472933586)%Z);
  ("humanitarian"%string, (9, 1587472933586)%Z);
  ("operate"%string, (12, 1587472933586)%Z);
  ("inexplicably"%string, (7, 1587472933586)%Z);
  ("writhing"%string, (7, 1587472933586)%Z);
  ("traitors"%string, (5, 1587472933586)%Z);
  ("contentment"%string, (6, 1587472933586)%Z);
  ("appealed"%string, (12, 1587472933586)%Z);
  ("hearty"%string, (7, 1587472933586)%Z);
  ("apologetic"%string, (6, 1587472933586)%Z);
  ("storms"%string, (7, 1587472933586)%Z);
  ("avoid"%string, (86, 1587472933586)%Z);
  ("stricken"%string, (7, 1587472933586)%Z);
  ("entrusted"%string, (6, 1587472933586)%Z);
  ("heritage"%string, (10, 1587472933586)%Z);
  ("relaxing"%string, (7, 1587472933586)%Z);
  ("compass"%string, (12, 1587472933586)%Z);
  ("insular"%string, (7, 1587472933586)%Z);
  ("screeching"%string, (7, 1587472933586)%Z);
  ("overrun"%string, (7, 1587472933586)%Z);
  ("overturned"%string, (5, 1587472933586)%Z);
  ("rockets"%string, (6, 1587472933586)%Z);
  ("contrary"%string, (17, 1587472933586)%Z);
  ("comparison"%string, (15, 1587472933586)%Z);
  ("compliments"%string, (9, 1587472933586)%Z);
  ("insult"%string, (13, 1587472933586)%Z);
  ("presses"%string, (11, 1587472933586)%Z);
  ("perfumed"%string, (6, 1587472933586)%Z);
  ("thankful"%string, (9, 1587472933586)%Z);
  ("willingly"%string, (6, 1587472933586)%Z);
  ("contradicted"%string, (6, 1587472933586)%Z);
  ("sleeveless"%string, (7, 1587472933586)%Z);
  ("lasting"%string, (9, 1587472933586)%Z);
  ("innovative"%string, (5, 1587472933586)%Z);
  ("composure"%string, (5, 1587472933586)%Z);
  ("trait"%string, (6, 1587472933586)%Z);
  ("compartment"%string, (6, 1587472933586)%Z);
  ("overalls"%string, (6, 1587472933586)%Z);
  ("contours"%string, (9, 1587472933586)%Z);
  ("continents"%string, (7, 1587472933586)%Z);
  ("tow"%string, (15, 1587472933586)%Z);
  ("restraint"%string, (7, 1587472933586)%Z);
  ("compact"%string, (9, 1587472933586)%Z);
  ("complexion"%string, (6, 1587472933586)%Z);
  ("restoring"%string, (6, 1587472933586)%Z);
  ("stink"%string, (9, 1587472933586)%Z);
  ("shined"%string, (7, 1587472933586)%Z);
  ("contractor"%string, (8, 1587472933586)%Z);
  ("accommodate"%string, (15, 1587472933586)%Z);
  ("joints"%string, (8, 1587472933586)%Z);
  ("complicity"%string, (7, 1587472933586)%Z);
  ("clustered"%string, (7, 1587472933586)%Z);
  ("implication"%string, (8, 1587472933586)%Z);
  ("guessing"%string, (13, 1587472933586)%Z);
  ("confirmation"%string, (7, 1587472933586)%Z);
  ("insuring"%string, (7, 1587472933586)%Z);
  ("contrast"%string, (17, 1587472933586)%Z);
  ("cords"%string, (5, 1587472933586)%Z);
  ("compromises"%string, (5, 1587472933586)%Z);
  ("continuous"%string, (8, 1587472933586)%Z);
  ("sandy"%string, (10, 1587472933586)%Z);
  ("willows"%string, (6, 1587472933586)%Z);
  ("confessions"%string, (8, 1587472933586)%Z);
  ("relapse"%string, (5, 1587472933586)%Z);
  ("manila"%string, (5, 1587472933586)%Z);
  ("guitar"%string, (11, 1587472933586)%Z);
  ("accordion"%string, (6, 1587472933586)%Z);
  ("ripple"%string, (8, 1587472933586)%Z);
  ("insulted"%string, (7, 1587472933586)%Z);
  ("kings"%string, (6, 1587472933586)%Z);
  ("overtook"%string, (5, 1587472933586)%Z);
  ("researched"%string, (6, 1587472933586)%Z);
  ("lasts"%string, (5, 1587472933586)%Z);
  ("presentations"%string, (6, 1587472933586)%Z);
  ("portable"%string, (8, 1587472933586)%Z);
  ("ripples"%string, (7, 1587472933586)%Z);
  ("contagious"%string, (9, 1587472933586)%Z);
  ("searches"%string, (9, 1587472933586)%Z);
  ("downstream"%string, (5, 1587472933586)%Z);
  ("compression"%string, (5, 1587472933586)%Z);
  ("offerings"%string, (5, 1587472933586)%Z);
  ("portraits"%string, (7, 1587472933586)%Z);
  ("lockers"%string, (8, 1587472933586)%Z);
  ("reset"%string, (5, 1587472933586)%Z);
  ("spi"%string, (14, 1587472933586)%Z);
  ("immensely"%string, (5, 1587472933586)%Z);
  ("lockdown"%string, (7, 1587472933586)%Z);
  ("stadium"%string, (9, 1587472933586)%Z);
  ("collaborators"%string, (6, 1587472933586)%Z);
  ("confidential"%string, (7, 1587472933586)%Z);
  ("comprehensive"%string, (8, 1587472933586)%Z);
  ("overseen"%string, (10, 1587472933586)%Z);
  ("oceanographer"%string, (5, 1587472933586)%Z);
  ("ray"%string, (5, 1269978346869)%Z);
  ("researching"%string, (7, 1269978346869)%Z);
  ("zip"%string, (6, 1269978346869)%Z);
  ("relay"%string, (6, 1269978346869)%Z);
  ("harrowing"%string, (4, 1269978346869)%Z);
  ("beliefs"%string, (7, 1269978346869)%Z);
  ("presided"%string, (6, 1269978346869)%Z);
  ("heartbreaking"%string, (8, 1269978346869)%Z);
  ("accomplish"%string, (6, 1269978346869)%Z);
  ("locking"%string, (6, 1269978346869)%Z);
  ("sandal"%string, (4, 1269978346869)%Z);
  ("overcast"%string, (5, 1269978346869)%Z);
  ("competitions"%string, (4, 1269978346869)%Z);
  ("downloaded"%string, (6, 1269978346869)%Z);
  ("cores"%string, (6, 1269978346869)%Z);
  ("offenders"%string, (5, 1269978346869)%Z);
  ("offenses"%string, (4, 1269978346869)%Z);
  ("heartily"%string, (5, 1269978346869)%Z);
  ("slats"%string, (4, 1269978346869)%Z);
  ("auction"%string, (6, 1269978346869)%Z);
  ("heartbreak"%string, (4, 1269978346869)%Z);
  ("accompany"%string, (11, 1269978346869)%Z);
  ("implacable"%string, (6, 1269978346869)%Z);
  ("complacency"%string, (4, 1269978346869)%Z);
  ("appeals"%string, (4, 1269978346869)%Z);
  ("latest"%string, (33, 1269978346869)%Z);
  ("confront"%string, (6, 1269978346869)%Z);
  ("screech"%string, (7, 1269978346869)%Z);
  ("brine"%string, (4, 1269978346869)%Z);
  ("stings"%string, (4, 1269978346869)%Z);
  ("downy"%string, (5, 1269978346869)%Z);
  ("portico"%string, (4, 1269978346869)%Z);
  ("compiled"%string, (5, 1269978346869)%Z);
  ("john"%string, (7, 1269978346869)%Z);
  ("heady"%string, (7, 1269978346869)%Z);
  ("visibly"%string, (6, 1269978346869)%Z);
  ("locker"%string, (13, 1269978346869)%Z);
  ("apologizing"%string, (10, 1269978346869)%Z);
  ("weights"%string, (5, 1269978346869)%Z);
  ("comparable"%string, (5, 1269978346869)%Z);
  ("guitars"%string, (5, 1269978346869)%Z);
  ("rancid"%string, (7, 1269978346869)%Z);
  ("entryway"%string, (11, 1269978346869)%Z);
  ("powerless"%string, (7, 1269978346869)%Z);
  ("overpass"%string, (10, 1269978346869)%Z);
  ("accountability"%string, (4, 1269978346869)%Z);
  ("intonation"%string, (4, 1269978346869)%Z);
  ("mandate"%string, (7, 1269978346869)%Z);
  ("faceless"%string, (4, 1269978346869)%Z);
  ("hardest"%string, (10, 1269978346869)%Z);
  ("reprieve"%string, (4, 1269978346869)%Z);
  ("heartache"%string, (4, 1269978346869)%Z);
  ("overlapped"%string, (4, 1269978346869)%Z);
  ("contented"%string, (4, 1269978346869)%Z);
  ("preserving"%string, (5, 1269978346869)%Z);
  ("yearned"%string, (4, 1269978346869)%Z);
  ("performances"%string, (6, 1269978346869)%Z);
  ("approximate"%string, (5, 1269978346869)%Z);
  ("mistakenly"%string, (5, 1269978346869)%Z);
  ("helmets"%string, (5, 1269978346869)%Z);
  ("turf"%string, (7, 1269978346869)%Z);
  ("indefinite"%string, (4, 1269978346869)%Z);
  ("approving"%string, (6, 1269978346869)%Z);
  ("contributions"%string, (6, 1269978346869)%Z);
  ("inertia"%string, (4, 1269978346869)%Z);
  ("willingness"%string, (12, 1269978346869)%Z);
  ("dealings"%string, (7, 1269978346869)%Z);
  ("complacent"%string, (5, 1269978346869)%Z);
  ("downed"%string, (5, 1269978346869)%Z);
  ("portions"%string, (4, 1269978346869)%Z);
  ("twentieth"%string, (26, 1269978346869)%Z);
  ("comparing"%string, (7, 1269978346869)%Z);
  ("therapeutic"%string, (4, 1269978346869)%Z);
  ("composition"%string, (7, 1269978346869)%Z);
  ("systematic"%string, (5, 1269978346869)%Z);
  ("manipulated"%string, (5, 1269978346869)%Z);
  ("manipulative"%string, (5, 1269978346869)%Z);
  ("contentedly"%string, (4, 1269978346869)%Z);
  ("heartbroken"%string, (8, 1269978346869)%Z);
  ("allotted"%string, (6, 1269978346869)%Z);
  ("stresses"%string, (5, 1269978346869)%Z);
  ("contemporaries"%string, (4, 1269978346869)%Z);
  ("echoing"%string, (7, 1269978346869)%Z);
  ("storefront"%string, (5, 1269978346869)%Z);
  ("laps"%string, (9, 1269978346869)%Z);
  ("shins"%string, (6, 1269978346869)%Z);
  ("manifestation"%string, (6, 1269978346869)%Z);
  ("streaking"%string, (5, 1269978346869)%Z);
  ("seared"%string, (4, 1269978346869)%Z);
  ("accordingly"%string, (6, 1269978346869)%Z);
  ("worldwide"%string, (8, 1269978346869)%Z);
  ("appendages"%string, (4, 1269978346869)%Z);
  ("homesick"%string, (4, 1269978346869)%Z);
  ("skepticism"%string, (4, 1269978346869)%Z);
  ("collapses"%string, (7, 1269978346869)%Z);
  ("zipped"%string, (5, 1269978346869)%Z);
  ("formality"%string, (7, 1269978346869)%Z);
  ("thinker"%string, (4, 1269978346869)%Z);
  ("configuration"%string, (4, 1269978346869)%Z);
  ("kin"%string, (5, 1269978346869)%Z);
  ("weightless"%string, (6, 1269978346869)%Z);
  ("conflicted"%string, (4, 1269978346869)%Z);
  ("increases"%string, (5, 1269978346869)%Z);
  ("offending"%string, (4, 1269978346869)%Z);
  ("contracting"%string, (4, 1269978346869)%Z);
  ("tamales"%string, (5, 1269978346869)%Z);
  ("issuing"%string, (6, 1269978346869)%Z);
  ("apologies"%string, (6, 1269978346869)%Z);
  ("complied"%string, (8, 1269978346869)%Z);
  ("graveyard"%string, (20, 1269978346869)%Z);
  ("nameless"%string, (7, 1269978346869)%Z);
  ("greatly"%string, (6, 1269978346869)%Z);
  ("restitution"%string, (4, 1269978346869)%Z);
  ("conform"%string, (6, 1269978346869)%Z);
  ("appropriately"%string, (5, 1269978346869)%Z);
  ("conflagrations"%string, (4, 1269978346869)%Z);
  ("conflicts"%string, (5, 1269978346869)%Z);
  ("likeness"%string, (4, 1269978346869)%Z);
  ("obscuring"%string, (6, 1269978346869)%Z);
  ("manifest"%string, (4, 1269978346869)%Z);
  ("repressed"%string, (4, 1269978346869)%Z);
  ("apologetically"%string, (4, 1269978346869)%Z);
  ("withers"%string, (5, 1269978346869)%Z);
  ("famine"%string, (5, 1269978346869)%Z);
  ("operator"%string, (6, 1269978346869)%Z);
  ("downriver"%string, (5, 1269978346869)%Z);
  ("collusion"%string, (4, 1269978346869)%Z);
  ("confess"%string, (12, 1269978346869)%Z);
  ("rivals"%string, (6, 1269978346869)%Z);
  ("shipwrecked"%string, (4, 1269978346869)%Z);
  ("complication"%string, (4, 1269978346869)%Z);
  ("gravely"%string, (4, 1269978346869)%Z);
  ("portfolio"%string, (6, 1269978346869)%Z);
  ("thinkers"%string, (4, 1269978346869)%Z);
  ("accountable"%string, (5, 1269978346869)%Z);
  ("fallout"%string, (7, 1269978346869)%Z);
  ("contests"%string, (5, 1269978346869)%Z);
  ("meandering"%string, (5, 1269978346869)%Z);
  ("homely"%string, (4, 1269978346869)%Z);
  ("confounded"%string, (4, 1269978346869)%Z);
  ("lapses"%string, (4, 1269978346869)%Z);
  ("affecting"%string, (6, 1269978346869)%Z);
  ("restlessness"%string, (4, 1269978346869)%Z);
  ("collaboration"%string, (7, 1269978346869)%Z);
  ("formative"%string, (5, 1269978346869)%Z);
  ("withholding"%string, (4, 1269978346869)%Z);
  ("intolerance"%string, (4, 1269978346869)%Z);
  ("conflicting"%string, (4, 1269978346869)%Z);
  ("representing"%string, (6, 1269978346869)%Z);
  ("shipments"%string, (5, 1269978346869)%Z);
  ("implicated"%string, (5, 1269978346869)%Z);
  ("compromising"%string, (4, 1269978346869)%Z);
  ("contributor"%string, (6, 1269978346869)%Z);
  ("robbing"%string, (4, 1269978346869)%Z);
  ("screws"%string, (5, 1269978346869)%Z);
  ("therapies"%string, (4, 1269978346869)%Z);
  ("goo"%string, (4, 952483760152)%Z);
  ("confessing"%string, (4, 952483760152)%Z);
  ("headmaster"%string, (16, 952483760152)%Z);
  ("overrated"%string, (3, 952483760152)%Z);
  ("nicest"%string, (5, 952483760152)%Z);
  ("examine"%string, (15, 952483760152)%Z);
  ("portentously"%string, (3, 952483760152)%Z);
  ("continent"%string, (15, 952483760152)%Z);
  ("familial"%string, (5, 952483760152)%Z);
  ("chills"%string, (5, 952483760152)%Z);
  ("implies"%string, (7, 952483760152)%Z);
  ("repression"%string, (4, 952483760152)%Z);
  ("formations"%string, (5, 952483760152)%Z);
  ("appreciative"%string, (3, 952483760152)%Z);
  ("comprehend"%string, (6, 952483760152)%Z);
  ("likelihood"%string, (6, 952483760152)%Z);
  ("trainers"%string, (6, 952483760152)%Z);
  ("manicured"%string, (3, 952483760152)%Z);
  ("grease"%string, (4, 952483760152)%Z);
  ("resentfully"%string, (4, 952483760152)%Z);
  ("meanness"%string, (5, 952483760152)%Z);
  ("confinement"%string, (7, 952483760152)%Z);
  ("reproduce"%string, (11, 952483760152)%Z);
  ("companionable"%string, (5, 952483760152)%Z);
  ("apologizes"%string, (4, 952483760152)%Z);
  ("takeout"%string, (4, 952483760152)%Z);
  ("storyteller"%string, (4, 952483760152)%Z);
  ("likeliest"%string, (3, 952483760152)%Z);
  ("contour"%string, (3, 952483760152)%Z);
  ("allowance"%string, (3, 952483760152)%Z);
  ("appreciates"%string, (3, 952483760152)%Z);
  ("insulated"%string, (3, 952483760152)%Z);
  ("inn"%string, (8, 952483760152)%Z);
  ("everlasting"%string, (4, 952483760152)%Z);
  ("reservoir"%string, (5, 952483760152)%Z);
  ("hardware"%string, (5, 952483760152)%Z);
  ("appreciation"%string, (4, 952483760152)%Z);
  ("corduroy"%string, (4, 952483760152)%Z);
  ("presume"%string, (3, 952483760152)%Z);
  ("rocket"%string, (5, 952483760152)%Z);
  ("careening"%string, (3, 952483760152)%Z);
  ("rocketing"%string, (3, 952483760152)%Z);
  ("reprisal"%string, (5, 952483760152)%Z);
  ("collects"%string, (6, 952483760152)%Z);
  ("competitors"%string, (3, 952483760152)%Z);
  ("indeterminate"%string, (6, 952483760152)%Z);
  ("thistles"%string, (4, 952483760152)%Z);
  ("manic"%string, (4, 952483760152)%Z);
  ("shingled"%string, (3, 952483760152)%Z);
  ("overwhelm"%string, (4, 952483760152)%Z);
  ("familiarity"%string, (6, 952483760152)%Z);
  ("overjoyed"%string, (3, 952483760152)%Z);
  ("relaxes"%string, (5, 952483760152)%Z);
  ("accommodations"%string, (4, 952483760152)%Z);
  ("fallow"%string, (4, 952483760152)%Z);
  ("alphabet"%string, (9, 952483760152)%Z);
  ("compensate"%string, (8, 952483760152)%Z);
  ("continual"%string, (5, 952483760152)%Z);
  ("collarbone"%string, (7, 952483760152)%Z);
  ("contrasted"%string, (3, 952483760152)%Z);
  ("contemplation"%string, (5, 952483760152)%Z);
  ("formulation"%string, (4, 952483760152)%Z);
  ("haven"%string, (5, 952483760152)%Z);
  ("storing"%string, (4, 952483760152)%Z);
  ("screened"%string, (3, 952483760152)%Z);
  ("oversight"%string, (3, 952483760152)%Z);
  ("conferred"%string, (7, 952483760152)%Z);
  ("headless"%string, (6, 952483760152)%Z);
  ("confide"%string, (5, 952483760152)%Z);
  ("perfected"%string, (6, 952483760152)%Z);
  ("confessional"%string, (4, 952483760152)%Z);
  ("evergreens"%string, (4, 952483760152)%Z);
  ("affectionate"%string, (4, 952483760152)%Z);
  ("carefree"%string, (3, 952483760152)%Z);
  ("entrenched"%string, (3, 952483760152)%Z);
  ("compensating"%string, (3, 952483760152)%Z);
  ("performer"%string, (5, 952483760152)%Z);
  ("screenplays"%string, (3, 952483760152)%Z);
  ("hardwood"%string, (6, 952483760152)%Z);
  ("compounded"%string, (4, 952483760152)%Z);
  ("downpour"%string, (5, 952483760152)%Z);
  ("cordial"%string, (3, 952483760152)%Z);
  ("fender"%string, (3, 952483760152)%Z);
  ("caller"%string, (6, 952483760152)%Z);
  ("thereafter"%string, (4, 952483760152)%Z);
  ("inexorably"%string, (3, 952483760152)%Z);
  ("overtly"%string, (3, 952483760152)%Z);
  ("relayed"%string, (4, 952483760152)%Z);
  ("thinly"%string, (4, 952483760152)%Z);
  ("stringy"%string, (3, 952483760152)%Z);
  ("caregivers"%string, (4, 952483760152)%Z);
  ("thermal"%string, (3, 952483760152)%Z);
  ("thereof"%string, (3, 952483760152)%Z);
  ("pounced"%string, (4, 952483760152)%Z);
  ("complimented"%string, (5, 952483760152)%Z);
  ("offend"%string, (8, 952483760152)%Z);
  ("imply"%string, (5, 952483760152)%Z);
  ("approbation"%string, (3, 952483760152)%Z);
  ("weighted"%string, (5, 952483760152)%Z);
  ("relate"%string, (5, 952483760152)%Z);
  ("nametags"%string, (3, 952483760152)%Z);
  ("latent"%string, (3, 952483760152)%Z);
  ("confesses"%string, (3, 952483760152)%Z);
  ("heartless"%string, (4, 952483760152)%Z);
  ("comply"%string, (5, 952483760152)%Z);
  ("restrict"%string, (3, 952483760152)%Z);
  ("believer"%string, (3, 952483760152)%Z);
  ("rob"%string, (12, 952483760152)%Z);
  ("prescribe"%string, (3, 952483760152)%Z);
  ("sleeper"%string, (3, 952483760152)%Z);
  ("locksmiths"%string, (3, 952483760152)%Z);
  ("headline"%string, (12, 952483760152)%Z);
  ("happiest"%string, (6, 952483760152)%Z);
  ("rippled"%string, (5, 952483760152)%Z);
  ("stormy"%string, (3, 952483760152)%Z);
  ("peoples"%string, (5, 952483760152)%Z);
  ("prestige"%string, (3, 952483760152)%Z);
  ("intoxicating"%string, (4, 952483760152)%Z);
  ("performs"%string, (5, 952483760152)%Z);
  ("compote"%string, (4, 952483760152)%Z);
  ("swimsuits"%string, (5, 952483760152)%Z);
  ("reservations"%string, (3, 952483760152)%Z);
  ("performative"%string, (4, 952483760152)%Z);
  ("intoned"%string, (4, 952483760152)%Z);
  ("accomplice"%string, (4, 952483760152)%Z);
  ("overwhelmingly"%string, (3, 952483760152)%Z);
  ("entrepreneur"%string, (4, 952483760152)%Z);
  ("wan"%string, (3, 952483760152)%Z);
  ("strengthened"%string, (3, 952483760152)%Z);
  ("pipeline"%string, (3, 952483760152)%Z);
  ("restraints"%string, (3, 952483760152)%Z);
  ("lockup"%string, (4, 952483760152)%Z);
  ("justify"%string, (12, 952483760152)%Z);
  ("presumed"%string, (8, 952483760152)%Z);
  ("oversaw"%string, (6, 952483760152)%Z);
  ("entries"%string, (5, 952483760152)%Z);
  ("approximation"%string, (3, 952483760152)%Z);
  ("overt"%string, (5, 952483760152)%Z);
  ("headlong"%string, (5, 952483760152)%Z);
  ("guileless"%string, (3, 952483760152)%Z);
  ("headscarf"%string, (5, 952483760152)%Z);
  ("impose"%string, (4, 952483760152)%Z);
  ("zipper"%string, (6, 952483760152)%Z);
  ("accommodation"%string, (3, 952483760152)%Z);
  ("repressive"%string, (3, 952483760152)%Z);
  ("composing"%string, (4, 952483760152)%Z);
  ("implying"%string, (5, 952483760152)%Z);
  ("contend"%string, (5, 952483760152)%Z);
  ("accompaniment"%string, (3, 952483760152)%Z);
  ("confiding"%string, (3, 952483760152)%Z);
  ("overcoats"%string, (3, 952483760152)%Z);
  ("impossibility"%string, (5, 952483760152)%Z);
  ("skeptic"%string, (3, 952483760152)%Z);
  ("overboard"%string, (4, 952483760152)%Z);
  ("contraband"%string, (3, 952483760152)%Z);
  ("competent"%string, (5, 952483760152)%Z);
  ("lettering"%string, (4, 952483760152)%Z);
  ("meaningfully"%string, (3, 952483760152)%Z);
  ("perfumes"%string, (5, 952483760152)%Z);
  ("wand"%string, (3, 952483760152)%Z);
  ("stakeholders"%string, (4, 952483760152)%Z);
  ("gravestone"%string, (4, 952483760152)%Z);
  ("graveyards"%string, (4, 952483760152)%Z);
  ("contacting"%string, (3, 952483760152)%Z);
  ("trainer"%string, (3, 952483760152)%Z);
  ("clusters"%string, (3, 952483760152)%Z);
  ("continually"%string, (4, 952483760152)%Z);
  ("stingers"%string, (3, 952483760152)%Z);
  ("restlessly"%string, (3, 952483760152)%Z);
  ("avoids"%string, (3, 952483760152)%Z);
  ("overdoses"%string, (4, 952483760152)%Z);
  ("completion"%string, (3, 952483760152)%Z);
  ("contradict"%string, (3, 952483760152)%Z);
  ("stinky"%string, (3, 952483760152)%Z);
  ("perfunctory"%string, (4, 952483760152)%Z);
  ("willfully"%string, (3, 952483760152)%Z);
  ("overheating"%string, (3, 952483760152)%Z);
  ("callous"%string, (3, 952483760152)%Z);
  ("headaches"%string, (3, 952483760152)%Z);
  ("formalized"%string, (3, 952483760152)%Z);
  ("streamlined"%string, (3, 952483760152)%Z);
  ("controls"%string, (3, 952483760152)%Z);
  ("containment"%string, (3, 952483760152)%Z);
  ("storming"%string, (4, 952483760152)%Z);
  ("implementation"%string, (4, 952483760152)%Z);
  ("confidants"%string, (3, 952483760152)%Z);
  ("prescience"%string, (3, 952483760152)%Z);
  ("branding"%string, (3, 952483760152)%Z);
  ("evergreen"%string, (3, 952483760152)%Z);
  ("restraining"%string, (4, 952483760152)%Z);
  ("insufferable"%string, (4, 952483760152)%Z);
  ("allocated"%string, (5, 952483760152)%Z);
  ("entrapped"%string, (3, 952483760152)%Z);
  ("collectively"%string, (4, 952483760152)%Z);
  ("heartland"%string, (5, 952483760152)%Z);
  ("competitive"%string, (4, 952483760152)%Z);
  ("confirms"%string, (3, 952483760152)%Z);
  ("configured"%string, (3, 952483760152)%Z);
  ("carelessly"%string, (4, 952483760152)%Z);
  ("indestructible"%string, (4, 952483760152)%Z);
  ("formulated"%string, (4, 952483760152)%Z);
  ("lighters"%string, (3, 952483760152)%Z);
  ("implements"%string, (3, 952483760152)%Z);
  ("contemplate"%string, (5, 952483760152)%Z);
  ("contraption"%string, (7, 952483760152)%Z);
  ("themes"%string, (5, 952483760152)%Z);
  ("collateral"%string, (3, 952483760152)%Z);
  ("compartments"%string, (3, 952483760152)%Z);
  ("appetites"%string, (3, 952483760152)%Z);
  ("complicit"%string, (4, 952483760152)%Z);
  ("appendage"%string, (3, 952483760152)%Z);
  ("cordless"%string, (3, 952483760152)%Z);
  ("performers"%string, (6, 952483760152)%Z);
  ("restrictions"%string, (4, 952483760152)%Z);
  ("mandated"%string, (4, 952483760152)%Z);
  ("mistreatment"%string, (3, 952483760152)%Z);
  ("systemic"%string, (5, 952483760152)%Z);
  ("confidentiality"%string, (3, 952483760152)%Z);
  ("confiscated"%string, (4, 952483760152)%Z);
  ("operates"%string, (5, 952483760152)%Z);
  ("competitor"%string, (3, 952483760152)%Z);
  ("meanings"%string, (4, 952483760152)%Z);
  ("overtaken"%string, (3, 952483760152)%Z);
  ("overlapping"%string, (3, 952483760152)%Z);
  ("reproduces"%string, (4, 952483760152)%Z);
  ("relativism"%string, (4, 952483760152)%Z);
  ("overwintering"%string, (3, 952483760152)%Z);
  ("contamination"%string, (3, 952483760152)%Z);
  ("oceanographers"%string, (3, 952483760152)%Z);
  ("collaborated"%string, (3, 952483760152)%Z);
  ("saber"%string, (3, 952483760152)%Z);
  ("meantime"%string, (25, 634989173435)%Z);
  ("comparative"%string, (2, 634989173435)%Z);
  ("imploring"%string, (3, 634989173435)%Z);
  ("caretaker"%string, (2, 634989173435)%Z);
  ("contrived"%string, (2, 634989173435)%Z);
  ("insure"%string, (20, 634989173435)%Z);
  ("insufficiency"%string, (2, 634989173435)%Z);
  ("conforms"%string, (3, 634989173435)%Z);
  ("overpowering"%string, (3, 634989173435)%Z);
  ("headland"%string, (2, 634989173435)%Z);
  ("immediacy"%string, (3, 634989173435)%Z);
  ("limbered"%string, (2, 634989173435)%Z);
  ("importantly"%string, (4, 634989173435)%Z);
  ("plastered"%string, (3, 634989173435)%Z);
  ("locksmith"%string, (4, 634989173435)%Z);
  ("withdraw"%string, (7, 634989173435)%Z);
  ("meanwhile"%string, (20, 634989173435)%Z);
  ("confidently"%string, (4, 634989173435)%Z);
  ("compose"%string, (3, 634989173435)%Z);
  ("collagen"%string, (2, 634989173435)%Z);
  ("champ"%string, (5, 634989173435)%Z);
  ("mistreated"%string, (3, 634989173435)%Z);
  ("screenwriter"%string, (4, 634989173435)%Z);
  ("appreciatively"%string, (2, 634989173435)%Z);
  ("confusingly"%string, (2, 634989173435)%Z);
  ("robberies"%string, (4, 634989173435)%Z);
  ("goldfish"%string, (3, 634989173435)%Z);
  ("resent"%string, (4, 634989173435)%Z);
  ("insubstantial"%string, (2, 634989173435)%Z);
  ("childhoods"%string, (2, 634989173435)%Z);
  ("visionary"%string, (5, 634989173435)%Z);
  ("oceanography"%string, (3, 634989173435)%Z);
  ("confidante"%string, (2, 634989173435)%Z);
  ("accord"%string, (3, 634989173435)%Z);
  ("overtake"%string, (2, 634989173435)%Z);
  ("languid"%string, (3, 634989173435)%Z);
  ("overstuffed"%string, (3, 634989173435)%Z);
  ("restrain"%string, (4, 634989173435)%Z);
  ("contrite"%string, (3, 634989173435)%Z);
  ("lookout"%string, (5, 634989173435)%Z);
  ("confrontations"%string, (2, 634989173435)%Z);
  ("appreciating"%string, (4, 634989173435)%Z);
  ("swimsuit"%string, (2, 634989173435)%Z);
  ("leasing"%string, (3, 634989173435)%Z);
  ("shingles"%string, (2, 634989173435)%Z);
  ("nameplate"%string, (3, 634989173435)%Z);
  ("bombardment"%string, (3, 634989173435)%Z);
  ("rocketed"%string, (2, 634989173435)%Z);
  ("likewise"%string, (2, 634989173435)%Z);
  ("collections"%string, (2, 634989173435)%Z);
  ("contorted"%string, (3, 634989173435)%Z);
  ("contemptible"%string, (3, 634989173435)%Z);
  ("traitor"%string, (4, 634989173435)%Z);
  ("strides"%string, (4, 634989173435)%Z);
  ("callused"%string, (2, 634989173435)%Z);
  ("scenery"%string, (8, 634989173435)%Z);
  ("hardwoods"%string, (2, 634989173435)%Z);
  ("doin"%string, (2, 634989173435)%Z);
  ("bombastic"%string, (3, 634989173435)%Z);
  ("thereby"%string, (8, 634989173435)%Z);
  ("presences"%string, (2, 634989173435)%Z);
  ("mistress"%string, (4, 634989173435)%Z);
  ("rivalries"%string, (2, 634989173435)%Z);
  ("resettled"%string, (3, 634989173435)%Z);
  ("entrust"%string, (2, 634989173435)%Z);
  ("appropriation"%string, (3, 634989173435)%Z);
  ("bomber"%string, (4, 634989173435)%Z);
  ("thanking"%string, (4, 634989173435)%Z);
  ("indecent"%string, (2, 634989173435)%Z);
  ("implore"%string, (2, 634989173435)%Z);
  ("searing"%string, (2, 634989173435)%Z);
  ("indelible"%string, (2, 634989173435)%Z);
  ("meander"%string, (3, 634989173435)%Z);
  ("shingle"%string, (5, 634989173435)%Z);
  ("rocker"%string, (3, 634989173435)%Z);
  ("wanders"%string, (6, 634989173435)%Z);
  ("striven"%string, (2, 634989173435)%Z);
  ("contribution"%string, (2, 634989173435)%Z);
  ("childbearing"%string, (2, 634989173435)%Z);
  ("contemptuous"%string, (3, 634989173435)%Z);
  ("writhed"%string, (2, 634989173435)%Z);
  ("veils"%string, (4, 634989173435)%Z);
  ("misty"%string, (4, 634989173435)%Z);
  ("apprehensive"%string, (3, 634989173435)%Z);
  ("obscurity"%string, (3, 634989173435)%Z);
  ("contrition"%string, (4, 634989173435)%Z);
  ("chambers"%string, (3, 634989173435)%Z);
  ("headlines"%string, (3, 634989173435)%Z);
  ("maniacally"%string, (2, 634989173435)%Z);
  ("zippered"%string, (3, 634989173435)%Z);
  ("dealership"%string, (7, 634989173435)%Z);
  ("restore"%string, (8, 634989173435)%Z);
  ("continuum"%string, (4, 634989173435)%Z);
  ("streambed"%string, (5, 634989173435)%Z);
  ("overlaid"%string, (2, 634989173435)%Z);
  ("brandy"%string, (5, 634989173435)%Z);
  ("reproduction"%string, (3, 634989173435)%Z);
  ("overfull"%string, (2, 634989173435)%Z);
  ("reprimanded"%string, (4, 634989173435)%Z);
  ("yearly"%string, (2, 634989173435)%Z);
  ("compassionate"%string, (2, 634989173435)%Z);
  ("whatnot"%string, (8, 634989173435)%Z);
  ("takeaway"%string, (2, 634989173435)%Z);
  ("bro"%string, (4, 634989173435)%Z);
  ("sleepily"%string, (2, 634989173435)%Z);
  ("overthinking"%string, (3, 634989173435)%Z);
  ("overdrive"%string, (2, 634989173435)%Z);
  ("tamago"%string, (2, 634989173435)%Z);
  ("sundries"%string, (2, 634989173435)%Z);
  ("dealerships"%string, (2, 634989173435)%Z);
  ("representational"%string, (3, 634989173435)%Z);
  ("homey"%string, (4, 634989173435)%Z);
  ("alpha"%string, (4, 634989173435)%Z);
  ("inextricably"%string, (2, 634989173435)%Z);
  ("hardship"%string, (2, 634989173435)%Z);
  ("childbirth"%string, (3, 634989173435)%Z);
  ("joins"%string, (11, 634989173435)%Z);
  ("portal"%string, (4, 634989173435)%Z);
  ("pressurized"%string, (3, 634989173435)%Z);
  ("safeguard"%string, (2, 634989173435)%Z);
  ("downtime"%string, (2, 634989173435)%Z);
  ("lighten"%string, (4, 634989173435)%Z);
  ("compulsion"%string, (4, 634989173435)%Z);
  ("storytelling"%string, (5, 634989173435)%Z);
  ("implicit"%string, (3, 634989173435)%Z);
  ("implemented"%string, (2, 634989173435)%Z);
  ("overstepping"%string, (3, 634989173435)%Z);
  ("overhear"%string, (3, 634989173435)%Z);
  ("comparatively"%string, (2, 634989173435)%Z);
  ("complains"%string, (5, 634989173435)%Z);
  ("collided"%string, (2, 634989173435)%Z);
  ("perforce"%string, (2, 634989173435)%Z);
  ("humanlike"%string, (2, 634989173435)%Z);
  ("shipshape"%string, (2, 634989173435)%Z);
  ("sash"%string, (4, 634989173435)%Z);
  ("accordance"%string, (9, 634989173435)%Z);
  ("implicate"%string, (2, 634989173435)%Z);
  ("confusedly"%string, (2, 634989173435)%Z);
  ("apprentice"%string, (3, 634989173435)%Z);
  ("headdress"%string, (2, 634989173435)%Z);
  ("hereditary"%string, (5, 634989173435)%Z);
  ("overlarge"%string, (2, 634989173435)%Z);
  ("homeschool"%string, (2, 634989173435)%Z);
  ("downs"%string, (4, 634989173435)%Z);
  ("guesses"%string, (2, 634989173435)%Z);
  ("trailers"%string, (3, 634989173435)%Z);
  ("contemplated"%string, (2, 634989173435)%Z);
  ("strengths"%string, (3, 634989173435)%Z);
  ("rites"%string, (2, 634989173435)%Z);
  ("contested"%string, (2, 634989173435)%Z);
  ("manifesto"%string, (4, 634989173435)%Z);
  ("droppings"%string, (3, 634989173435)%Z);
  ("presiding"%string, (4, 634989173435)%Z);
  ("willed"%string, (3, 634989173435)%Z);
  ("compels"%string, (3, 634989173435)%Z);
  ("composer"%string, (3, 634989173435)%Z);
  ("caricature"%string, (3, 634989173435)%Z);
  ("shin"%string, (3, 634989173435)%Z);
  ("amputated"%string, (2, 634989173435)%Z);
  ("stinging"%string, (3, 634989173435)%Z);
  ("hateful"%string, (4, 634989173435)%Z);
  ("callout"%string, (3, 634989173435)%Z);
  ("compounding"%string, (2, 634989173435)%Z);
  ("sandstone"%string, (3, 634989173435)%Z);
  ("screeched"%string, (2, 634989173435)%Z);
  ("lighted"%string, (3, 634989173435)%Z);
  ("scenting"%string, (2, 634989173435)%Z);
  ("mistaking"%string, (4, 634989173435)%Z);
  ("collaborative"%string, (2, 634989173435)%Z);
  ("chilling"%string, (3, 634989173435)%Z);
  ("headstone"%string, (2, 634989173435)%Z);
  ("trapping"%string, (3, 634989173435)%Z);
  ("contractors"%string, (2, 634989173435)%Z);
  ("composting"%string, (3, 634989173435)%Z);
  ("homesteading"%string, (2, 634989173435)%Z);
  ("safest"%string, (3, 634989173435)%Z);
  ("leashes"%string, (2, 634989173435)%Z);
  ("veiled"%string, (3, 634989173435)%Z);
  ("entreaty"%string, (2, 634989173435)%Z);
  ("hearth"%string, (3, 634989173435)%Z);
  ("withdraws"%string, (2, 634989173435)%Z);
  ("imposing"%string, (4, 634989173435)%Z);
  ("reproached"%string, (2, 634989173435)%Z);
  ("overtime"%string, (2, 634989173435)%Z);
  ("formalities"%string, (2, 634989173435)%Z);
  ("headbands"%string, (2, 634989173435)%Z);
  ("sleet"%string, (3, 634989173435)%Z);
  ("affections"%string, (5, 634989173435)%Z);
  ("childlike"%string, (3, 634989173435)%Z);
  ("swims"%string, (4, 634989173435)%Z);
  ("fending"%string, (3, 634989173435)%Z);
  ("performatively"%string, (2, 634989173435)%Z);
  ("overcrowded"%string, (3, 634989173435)%Z);
  ("accomplishing"%string, (2, 634989173435)%Z);
  ("inexperienced"%string, (3, 634989173435)%Z);
  ("justifiably"%string, (2, 634989173435)%Z);
  ("immeasurably"%string, (2, 634989173435)%Z);
  ("overblown"%string, (3, 634989173435)%Z);
  ("childishly"%string, (2, 634989173435)%Z);
  ("reproachfully"%string, (2, 634989173435)%Z);
  ("callously"%string, (2, 634989173435)%Z);
  ("portentous"%string, (2, 634989173435)%Z);
  ("spills"%string, (2, 634989173435)%Z);
  ("bombshell"%string, (3, 634989173435)%Z);
  ("accommodating"%string, (2, 634989173435)%Z);
  ("overpriced"%string, (2, 634989173435)%Z);
  ("manipulation"%string, (5, 634989173435)%Z);
  ("reproductive"%string, (2, 634989173435)%Z);
  ("believers"%string, (3, 634989173435)%Z);
  ("guillotine"%string, (2, 634989173435)%Z);
  ("preservation"%string, (3, 634989173435)%Z);
  ("fallacy"%string, (4, 634989173435)%Z);
  ("competes"%string, (2, 634989173435)%Z);
  ("strengthening"%string, (2, 634989173435)%Z);
  ("independently"%string, (3, 634989173435)%Z);
  ("randomness"%string, (2, 634989173435)%Z);
  ("downwind"%string, (2, 634989173435)%Z);
  ("believable"%string, (2, 634989173435)%Z);
  ("striding"%string, (3, 634989173435)%Z);
  ("competed"%string, (2, 634989173435)%Z);
  ("manifests"%string, (2, 634989173435)%Z);
  ("implant"%string, (2, 634989173435)%Z);
  ("accomplishment"%string, (2, 634989173435)%Z);
  ("lapse"%string, (2, 634989173435)%Z);
  ("looker"%string, (2, 634989173435)%Z);
  ("colloquial"%string, (2, 634989173435)%Z);
  ("prescribing"%string, (2, 634989173435)%Z);
  ("overdose"%string, (2, 634989173435)%Z);
  ("childless"%string, (2, 634989173435)%Z);
  ("presumptuous"%string, (2, 634989173435)%Z);
  ("oceanic"%string, (3, 634989173435)%Z);
  ("branching"%string, (3, 634989173435)%Z);
  ("presentable"%string, (2, 634989173435)%Z);
  ("compressor"%string, (2, 634989173435)%Z);
  ("stinger"%string, (4, 634989173435)%Z);
  ("similarities"%string, (2, 634989173435)%Z);
  ("conferring"%string, (4, 634989173435)%Z);
  ("restyled"%string, (2, 634989173435)%Z);
  ("withstand"%string, (6, 634989173435)%Z);
  ("accompanies"%string, (2, 634989173435)%Z);
  ("overhanging"%string, (2, 634989173435)%Z);
  ("likened"%string, (2, 634989173435)%Z);
  ("humane"%string, (3, 634989173435)%Z);
  ("helpers"%string, (2, 634989173435)%Z);
  ("heartfelt"%string, (2, 634989173435)%Z);
  ("relaxation"%string, (3, 634989173435)%Z);
  ("calluses"%string, (2, 634989173435)%Z);
  ("lightheaded"%string, (2, 634989173435)%Z);
  ("storefronts"%string, (2, 634989173435)%Z);
  ("apprehended"%string, (2, 634989173435)%Z);
  ("contradictory"%string, (2, 634989173435)%Z);
  ("downcast"%string, (2, 634989173435)%Z);
  ("hardworking"%string, (2, 634989173435)%Z);
  ("unveiling"%string, (2, 634989173435)%Z);
  ("indentation"%string, (2, 634989173435)%Z);
  ("yearn"%string, (2, 634989173435)%Z);
  ("appraisals"%string, (2, 634989173435)%Z);
  ("overinterpret"%string, (2, 634989173435)%Z);
  ("overflow"%string, (3, 634989173435)%Z);
  ("restrictive"%string, (2, 634989173435)%Z);
  ("manipulate"%string, (3, 634989173435)%Z);
  ("compositions"%string, (2, 634989173435)%Z);
  ("composite"%string, (2, 634989173435)%Z);
  ("import"%string, (3, 634989173435)%Z);
  ("negatives"%string, (2, 634989173435)%Z);
  ("contingent"%string, (2, 634989173435)%Z);
  ("clusterfuck"%string, (2, 634989173435)%Z);
  ("con"%string, (2, 634989173435)%Z);
  ("incriminate"%string, (2, 634989173435)%Z);
  ("hearse"%string, (2, 634989173435)%Z);
  ("oversee"%string, (4, 634989173435)%Z);
  ("stringent"%string, (3, 634989173435)%Z);
  ("entrepreneurs"%string, (2, 634989173435)%Z);
  ("restoration"%string, (3, 634989173435)%Z);
  ("fend"%string, (2, 634989173435)%Z);
  ("storks"%string, (3, 634989173435)%Z);
  ("overlap"%string, (2, 634989173435)%Z);
  ("implored"%string, (3, 634989173435)%Z);
  ("collectives"%string, (2, 634989173435)%Z);
  ("overseeing"%string, (3, 634989173435)%Z);
  ("portrayed"%string, (4, 634989173435)%Z);
  ("incremental"%string, (2, 634989173435)%Z);
  ("contradictions"%string, (3, 634989173435)%Z);
  ("confounding"%string, (2, 634989173435)%Z);
  ("overhaul"%string, (3, 634989173435)%Z);
  ("screenshots"%string, (2, 634989173435)%Z);
  ("broker"%string, (3, 634989173435)%Z);
  ("inexpensive"%string, (2, 634989173435)%Z);
  ("operational"%string, (2, 634989173435)%Z);
  ("writings"%string, (2, 634989173435)%Z);
  ("contributing"%string, (2, 634989173435)%Z);
  ("stressors"%string, (2, 634989173435)%Z);
  ("gravest"%string, (3, 634989173435)%Z);
  ("trainees"%string, (2, 634989173435)%Z);
  ("oversees"%string, (3, 634989173435)%Z);
  ("ranchers"%string, (3, 634989173435)%Z);
  ("contradicts"%string, (2, 634989173435)%Z);
  ("appropriations"%string, (2, 634989173435)%Z);
  ("plastics"%string, (4, 634989173435)%Z);
  ("weighs"%string, (2, 634989173435)%Z);
  ("languished"%string, (2, 634989173435)%Z);
  ("overwrought"%string, (2, 634989173435)%Z);
  ("sundown"%string, (3, 634989173435)%Z);
  ("formatted"%string, (2, 634989173435)%Z);
  ("confers"%string, (2, 634989173435)%Z);
  ("reproachful"%string, (2, 634989173435)%Z);
  ("contention"%string, (2, 634989173435)%Z);
  ("imposition"%string, (2, 634989173435)%Z);
  ("facets"%string, (2, 634989173435)%Z);
  ("collaborator"%string, (2, 634989173435)%Z);
  ("confrontational"%string, (2, 634989173435)%Z);
  ("computing"%string, (2, 634989173435)%Z);
  ("continental"%string, (4, 634989173435)%Z);
  ("contraception"%string, (2, 634989173435)%Z);
  ("simian"%string, (2, 634989173435)%Z);
  ("headlamp"%string, (2, 634989173435)%Z);
  ("implants"%string, (2, 634989173435)%Z);
  ("doings"%string, (2, 634989173435)%Z);
  ("thistle"%string, (2, 634989173435)%Z);
  ("safekeeping"%string, (2, 634989173435)%Z);
  ("appellation"%string, (2, 634989173435)%Z);
  ("lightboard"%string, (2, 634989173435)%Z);
  ("lightsabers"%string, (4, 634989173435)%Z);
  ("amputate"%string, (3, 634989173435)%Z);
  ("collarbones"%string, (1, 317494586717)%Z);
  ("contaminants"%string, (1, 317494586717)%Z);
  ("homeopath"%string, (1, 317494586717)%Z);
  ("compatibility"%string, (1, 317494586717)%Z);
  ("downslope"%string, (2, 317494586717)%Z);
  ("streambeds"%string, (1, 317494586717)%Z);
  ("overturn"%string, (2, 317494586717)%Z);
  ("oversights"%string, (1, 317494586717)%Z);
  ("storklike"%string, (1, 317494586717)%Z);
  ("reprises"%string, (1, 317494586717)%Z);
  ("mistranslated"%string, (2, 317494586717)%Z);
  ("implausibly"%string, (2, 317494586717)%Z);
  ("caretakers"%string, (1, 317494586717)%Z);
  ("entropies"%string, (1, 317494586717)%Z);
  ("overthought"%string, (1, 317494586717)%Z);
  ("indentations"%string, (1, 317494586717)%Z);
  ("stinkbugs"%string, (1, 317494586717)%Z);
  ("exams"%string, (3, 317494586717)%Z);
  ("contradicting"%string, (1, 317494586717)%Z);
  ("championship"%string, (2, 317494586717)%Z);
  ("contender"%string, (2, 317494586717)%Z);
  ("overmuch"%string, (1, 317494586717)%Z);
  ("sleepwalker"%string, (1, 317494586717)%Z);
  ("champs"%string, (1, 317494586717)%Z);
  ("sleeplessness"%string, (2, 317494586717)%Z);
  ("champions"%string, (3, 317494586717)%Z);
  ("fended"%string, (1, 317494586717)%Z);
  ("offensives"%string, (1, 317494586717)%Z);
  ("examiner"%string, (2, 317494586717)%Z);
  ("heartwood"%string, (1, 317494586717)%Z);
  ("similes"%string, (2, 317494586717)%Z);
  ("homeward"%string, (1, 317494586717)%Z);
  ("apprehending"%string, (1, 317494586717)%Z);
  ("brink"%string, (8, 317494586717)%Z);
  ("niceness"%string, (1, 317494586717)%Z);
  ("indecision"%string, (1, 317494586717)%Z);
  ("appease"%string, (3, 317494586717)%Z);
  ("champing"%string, (1, 317494586717)%Z);
  ("insurgent"%string, (1, 317494586717)%Z);
  ("maniacal"%string, (2, 317494586717)%Z);
  ("familiarities"%string, (1, 317494586717)%Z);
  ("strictures"%string, (1, 317494586717)%Z);
  ("strengthen"%string, (5, 317494586717)%Z);
  ("thankless"%string, (1, 317494586717)%Z);
  ("calloused"%string, (2, 317494586717)%Z);
  ("streamers"%string, (1, 317494586717)%Z);
  ("greaser"%string, (2, 317494586717)%Z);
  ("racetracks"%string, (1, 317494586717)%Z);
  ("presuming"%string, (1, 317494586717)%Z);
  ("complicate"%string, (3, 317494586717)%Z);
  ("heartiness"%string, (2, 317494586717)%Z);
  ("shineth"%string, (1, 317494586717)%Z);
  ("moreover"%string, (3, 317494586717)%Z);
  ("sandbagging"%string, (1, 317494586717)%Z);
  ("belied"%string, (1, 317494586717)%Z);
  ("reservist"%string, (2, 317494586717)%Z);
  ("presage"%string, (1, 317494586717)%Z);
  ("perforation"%string, (1, 317494586717)%Z);
  ("contortion"%string, (1, 317494586717)%Z);
  ("overhangs"%string, (1, 317494586717)%Z);
  ("rockface"%string, (1, 317494586717)%Z);
  ("thankfully"%string, (6, 317494586717)%Z);
  ("configurations"%string, (1, 317494586717)%Z);
  ("fallacies"%string, (1, 317494586717)%Z);
  ("overcrowding"%string, (1, 317494586717)%Z);
  ("appraised"%string, (2, 317494586717)%Z);
  ("homelessness"%string, (2, 317494586717)%Z);
  ("oversharing"%string, (1, 317494586717)%Z);
  ("sandpipers"%string, (2, 317494586717)%Z);
  ("gravestones"%string, (2, 317494586717)%Z);
  ("reservoirs"%string, (1, 317494586717)%Z);
  ("carelessness"%string, (1, 317494586717)%Z);
  ("overloaded"%string, (1, 317494586717)%Z);
  ("lighthearted"%string, (1, 317494586717)%Z);
  ("lightened"%string, (3, 317494586717)%Z);
  ("riskless"%string, (1, 317494586717)%Z);
  ("wellness"%string, (1, 317494586717)%Z);
  ("collarless"%string, (1, 317494586717)%Z);
  ("sandbox"%string, (1, 317494586717)%Z);
  ("innovation"%string, (2, 317494586717)%Z);
  ("allotment"%string, (1, 317494586717)%Z);
  ("intone"%string, (1, 317494586717)%Z);
  ("wither"%string, (1, 317494586717)%Z);
  ("nametag"%string, (2, 317494586717)%Z);
  ("twentysomething"%string, (2, 317494586717)%Z);
  ("headlight"%string, (1, 317494586717)%Z);
  ("lookers"%string, (1, 317494586717)%Z);
  ("cordoned"%string, (3, 317494586717)%Z);
  ("accountants"%string, (1, 317494586717)%Z);
  ("inexact"%string, (2, 317494586717)%Z);
  ("overworked"%string, (2, 317494586717)%Z);
  ("streetlights"%string, (2, 317494586717)%Z);
  ("maniac"%string, (2, 317494586717)%Z);
  ("overconscientious"%string, (1, 317494586717)%Z);
  ("overcooked"%string, (1, 317494586717)%Z);
  ("apprenticeship"%string, (1, 317494586717)%Z);
  ("fallible"%string, (1, 317494586717)%Z);
  ("yearlong"%string, (1, 317494586717)%Z);
  ("collapsible"%string, (1, 317494586717)%Z);
  ("preserves"%string, (1, 317494586717)%Z);
  ("overtopped"%string, (1, 317494586717)%Z);
  ("accosted"%string, (3, 317494586717)%Z);
  ("latecomer"%string, (3, 317494586717)%Z);
  ("heartening"%string, (1, 317494586717)%Z);
  ("confessionally"%string, (1, 317494586717)%Z);
  ("withdrawing"%string, (2, 317494586717)%Z);
  ("appraisal"%string, (1, 317494586717)%Z);
  ("competitiveness"%string, (1, 317494586717)%Z);
  ("porthole"%string, (2, 317494586717)%Z);
  ("overstated"%string, (2, 317494586717)%Z);
  ("strenuous"%string, (2, 317494586717)%Z);
  ("ritually"%string, (1, 317494586717)%Z);
  ("confidant"%string, (1, 317494586717)%Z);
  ("dropout"%string, (2, 317494586717)%Z);
  ("confuse"%string, (5, 317494586717)%Z);
  ("trapdoor"%string, (4, 317494586717)%Z);
  ("continuity"%string, (2, 317494586717)%Z);
  ("screeners"%string, (1, 317494586717)%Z);
  ("overcame"%string, (1, 317494586717)%Z);
  ("downloads"%string, (1, 317494586717)%Z);
  ("operas"%string, (1, 317494586717)%Z);
  ("belittling"%string, (1, 317494586717)%Z);
  ("stretcher"%string, (1, 317494586717)%Z);
  ("guessin"%string, (2, 317494586717)%Z);
  ("negated"%string, (1, 317494586717)%Z);
  ("careering"%string, (1, 317494586717)%Z);
  ("stridently"%string, (1, 317494586717)%Z);
  ("insultingly"%string, (2, 317494586717)%Z);
  ("appeareth"%string, (1, 317494586717)%Z);
  ("apprehension"%string, (2, 317494586717)%Z);
  ("maniacs"%string, (1, 317494586717)%Z);
  ("sleepers"%string, (1, 317494586717)%Z);
  ("sleepovers"%string, (2, 317494586717)%Z);
  ("formulate"%string, (2, 317494586717)%Z);
  ("overheads"%string, (1, 317494586717)%Z);
  ("compassionless"%string, (2, 317494586717)%Z);
  ("taker"%string, (1, 317494586717)%Z);
  ("compossibilities"%string, (1, 317494586717)%Z);
  ("entranced"%string, (1, 317494586717)%Z);
  ("striver"%string, (1, 317494586717)%Z);
  ("robbers"%string, (1, 317494586717)%Z);
  ("sanded"%string, (2, 317494586717)%Z);
  ("apprised"%string, (1, 317494586717)%Z);
  ("accommodated"%string, (2, 317494586717)%Z);
  ("complimenting"%string, (2, 317494586717)%Z);
  ("sear"%string, (1, 317494586717)%Z);
  ("hardtop"%string, (1, 317494586717)%Z);
  ("overabundance"%string, (2, 317494586717)%Z);
  ("chamois"%string, (2, 317494586717)%Z);
  ("hardening"%string, (1, 317494586717)%Z);
  ("cored"%string, (1, 317494586717)%Z);
  ("confectionary"%string, (1, 317494586717)%Z);
  ("confirming"%string, (2, 317494586717)%Z);
  ("indenture"%string, (1, 317494586717)%Z);
  ("trailhead"%string, (2, 317494586717)%Z);
  ("portraying"%string, (3, 317494586717)%Z);
  ("caretaking"%string, (1, 317494586717)%Z);
  ("overhears"%string, (1, 317494586717)%Z);
  ("briny"%string, (3, 317494586717)%Z);
  ("traitorous"%string, (1, 317494586717)%Z);
  ("stakeout"%string, (2, 317494586717)%Z);
  ("sleepover"%string, (4, 317494586717)%Z);
  ("heartstrings"%string, (1, 317494586717)%Z);
  ("lightest"%string, (2, 317494586717)%Z);
  ("thatching"%string, (1, 317494586717)%Z);
  ("scenic"%string, (2, 317494586717)%Z);
  ("facetiously"%string, (1, 317494586717)%Z);
  ("wills"%string, (2, 317494586717)%Z);
  ("thanksgiving"%string, (1, 317494586717)%Z);
  ("collage"%string, (1, 317494586717)%Z);
  ("hereafter"%string, (1, 317494586717)%Z);
  ("heretic"%string, (1, 317494586717)%Z);
  ("meanest"%string, (1, 317494586717)%Z);
  ("sabe"%string, (1, 317494586717)%Z);
  ("compliantly"%string, (1, 317494586717)%Z);
  ("perfecting"%string, (3, 317494586717)%Z);
  ("overgrowth"%string, (3, 317494586717)%Z);
  ("overruns"%string, (1, 317494586717)%Z);
  ("inexhaustible"%string, (1, 317494586717)%Z);
  ("resell"%string, (4, 317494586717)%Z);
  ("overeager"%string, (1, 317494586717)%Z);
  ("overactive"%string, (1, 317494586717)%Z);
  ("wanderings"%string, (1, 317494586717)%Z);
  ("impolite"%string, (1, 317494586717)%Z);
  ("entropy"%string, (1, 317494586717)%Z);
  ("download"%string, (2, 317494586717)%Z);
  ("downer"%string, (3, 317494586717)%Z);
  ("comprises"%string, (1, 317494586717)%Z);
  ("inertness"%string, (1, 317494586717)%Z);
  ("plashing"%string, (1, 317494586717)%Z);
  ("helpings"%string, (1, 317494586717)%Z);
  ("powerfully"%string, (1, 317494586717)%Z);
  ("withering"%string, (2, 317494586717)%Z);
  ("resetting"%string, (1, 317494586717)%Z);
  ("chameleon"%string, (1, 317494586717)%Z);
  ("confides"%string, (1, 317494586717)%Z);
  ("languish"%string, (1, 317494586717)%Z);
  ("tamarind"%string, (1, 317494586717)%Z);
  ("homeschooling"%string, (1, 317494586717)%Z);
  ("helper"%string, (1, 317494586717)%Z);
  ("famed"%string, (3, 317494586717)%Z);
  ("thinnest"%string, (3, 317494586717)%Z);
  ("entreaties"%string, (2, 317494586717)%Z);
  ("childcare"%string, (1, 317494586717)%Z);
  ("caressed"%string, (1, 317494586717)%Z);
  ("indefinably"%string, (1, 317494586717)%Z);
  ("lighthouses"%string, (1, 317494586717)%Z);
  ("confer"%string, (1, 317494586717)%Z);
  ("coulis"%string, (1, 317494586717)%Z);
  ("overbite"%string, (1, 317494586717)%Z);
  ("pressuring"%string, (1, 317494586717)%Z);
  ("formulas"%string, (4, 317494586717)%Z);
  ("carer"%string, (1, 317494586717)%Z);
  ("offender"%string, (2, 317494586717)%Z);
  ("oversimplifying"%string, (1, 317494586717)%Z);
  ("compactness"%string, (1, 317494586717)%Z);
  ("ports"%string, (1, 317494586717)%Z);
  ("porters"%string, (2, 317494586717)%Z);
  ("mistletoe"%string, (1, 317494586717)%Z);
  ("collegiate"%string, (1, 317494586717)%Z);
  ("overdressed"%string, (1, 317494586717)%Z);
  ("welling"%string, (1, 317494586717)%Z);
  ("thingy"%string, (2, 317494586717)%Z);
  ("limbering"%string, (1, 317494586717)%Z);
  ("overripe"%string, (1, 317494586717)%Z);
  ("compatriots"%string, (1, 317494586717)%Z);
  ("portrays"%string, (1, 317494586717)%Z);
  ("writerly"%string, (2, 317494586717)%Z);
  ("presumptive"%string, (1, 317494586717)%Z);
  ("insulation"%string, (1, 317494586717)%Z);
  ("sundress"%string, (1, 317494586717)%Z);
  ("complexes"%string, (1, 317494586717)%Z);
  ("portfolios"%string, (1, 317494586717)%Z);
  ("sleeting"%string, (1, 317494586717)%Z);
  ("chilies"%string, (1, 317494586717)%Z);
  ("portakabin"%string, (1, 317494586717)%Z);
  ("guile"%string, (1, 317494586717)%Z);
  ("manifestations"%string, (2, 317494586717)%Z);
  ("striping"%string, (1, 317494586717)%Z);
  ("completing"%string, (3, 317494586717)%Z);
  ("resealable"%string, (1, 317494586717)%Z);
  ("tho"%string, (1, 317494586717)%Z);
  ("overfished"%string, (1, 317494586717)%Z);
  ("streetlight"%string, (2, 317494586717)%Z);
  ("droplet"%string, (1, 317494586717)%Z);
  ("familiarize"%string, (1, 317494586717)%Z);
  ("familiarization"%string, (1, 317494586717)%Z);
  ("staked"%string, (1, 317494586717)%Z);
  ("heartened"%string, (1, 317494586717)%Z);
  ("overture"%string, (1, 317494586717)%Z);
  ("confines"%string, (1, 317494586717)%Z);
  ("screwing"%string, (1, 317494586717)%Z);
  ("langoustine"%string, (1, 317494586717)%Z);
  ("chamomile"%string, (1, 317494586717)%Z);
  ("storybook"%string, (3, 317494586717)%Z);
  ("contingency"%string, (1, 317494586717)%Z);
  ("downsizing"%string, (1, 317494586717)%Z);
  ("piped"%string, (2, 317494586717)%Z);
  ("impotence"%string, (3, 317494586717)%Z);
  ("operatic"%string, (1, 317494586717)%Z);
  ("childishness"%string, (2, 317494586717)%Z);
  ("shipman"%string, (1, 317494586717)%Z);
  ("writhe"%string, (1, 317494586717)%Z);
  ("overfed"%string, (1, 317494586717)%Z);
  ("likelier"%string, (1, 317494586717)%Z);
  ("compulsive"%string, (1, 317494586717)%Z);
  ("obscenities"%string, (1, 317494586717)%Z);
  ("porter"%string, (2, 317494586717)%Z);
  ("homeschooled"%string, (2, 317494586717)%Z);
  ("homeroom"%string, (1, 317494586717)%Z);
  ("stretchy"%string, (1, 317494586717)%Z);
  ("pounce"%string, (2, 317494586717)%Z);
  ("headstones"%string, (1, 317494586717)%Z);
  ("stingy"%string, (1, 317494586717)%Z);
  ("believably"%string, (1, 317494586717)%Z);
  ("appetizer"%string, (1, 317494586717)%Z);
  ("yearbook"%string, (1, 317494586717)%Z);
  ("overcoming"%string, (2, 317494586717)%Z);
  ("pressured"%string, (2, 317494586717)%Z);
  ("kingbirds"%string, (1, 317494586717)%Z);
  ("kingbird"%string, (1, 317494586717)%Z);
  ("guitarist"%string, (2, 317494586717)%Z);
  ("overpaid"%string, (1, 317494586717)%Z);
  ("callouses"%string, (1, 317494586717)%Z);
  ("innocently"%string, (1, 317494586717)%Z);
  ("thins"%string, (1, 317494586717)%Z);
  ("taketh"%string, (1, 317494586717)%Z);
  ("slathered"%string, (1, 317494586717)%Z);
  ("strenuously"%string, (1, 317494586717)%Z);
  ("entreat"%string, (1, 317494586717)%Z);
  ("confection"%string, (2, 317494586717)%Z);
  ("headstrong"%string, (1, 317494586717)%Z);
  ("belittled"%string, (1, 317494586717)%Z);
  ("lettered"%string, (1, 317494586717)%Z);
  ("greatness"%string, (1, 317494586717)%Z);
  ("kingly"%string, (1, 317494586717)%Z);
  ("helm"%string, (2, 317494586717)%Z);
  ("sandbar"%string, (1, 317494586717)%Z);
  ("compost"%string, (1, 317494586717)%Z);
  ("sleepwalking"%string, (1, 317494586717)%Z);
  ("intolerable"%string, (1, 317494586717)%Z);
  ("overshadowed"%string, (1, 317494586717)%Z);
  ("compares"%string, (1, 317494586717)%Z);
  ("perfectionism"%string, (1, 317494586717)%Z);
  ("immensity"%string, (2, 317494586717)%Z);
  ("latex"%string, (1, 317494586717)%Z);
  ("bombard"%string, (1, 317494586717)%Z);
  ("contentious"%string, (2, 317494586717)%Z);
  ("headmistress"%string, (2, 317494586717)%Z);
  ("homecoming"%string, (2, 317494586717)%Z);
  ("overwrite"%string, (1, 317494586717)%Z);
  ("homecomings"%string, (1, 317494586717)%Z);
  ("overarching"%string, (1, 317494586717)%Z);
  ("restricting"%string, (1, 317494586717)%Z);
  ("pounder"%string, (1, 317494586717)%Z);
  ("headboard"%string, (3, 317494586717)%Z);
  ("downplay"%string, (1, 317494586717)%Z);
  ("dropper"%string, (2, 317494586717)%Z);
  ("importer"%string, (1, 317494586717)%Z);
  ("relaying"%string, (1, 317494586717)%Z);
  ("ritualized"%string, (1, 317494586717)%Z);
  ("swimmy"%string, (2, 317494586717)%Z);
  ("overpacked"%string, (1, 317494586717)%Z);
  ("hardcover"%string, (1, 317494586717)%Z);
  ("graved"%string, (1, 317494586717)%Z);
  ("imp"%string, (2, 317494586717)%Z);
  ("presupposed"%string, (1, 317494586717)%Z);
  ("strewed"%string, (1, 317494586717)%Z);
  ("childminder"%string, (1, 317494586717)%Z);
  ("lightheartedly"%string, (1, 317494586717)%Z);
  ("screenshot"%string, (2, 317494586717)%Z);
  ("complexions"%string, (1, 317494586717)%Z);
  ("reprimand"%string, (1, 317494586717)%Z);
  ("confronts"%string, (2, 317494586717)%Z);
  ("bombers"%string, (2, 317494586717)%Z);
  ("hardwired"%string, (2, 317494586717)%Z);
  ("overwhelms"%string, (1, 317494586717)%Z);
  ("complicates"%string, (1, 317494586717)%Z);
  ("joiners"%string, (1, 317494586717)%Z);
  ("screenwriting"%string, (1, 317494586717)%Z);
  ("collide"%string, (1, 317494586717)%Z);
  ("entrails"%string, (3, 317494586717)%Z);
  ("affectation"%string, (2, 317494586717)%Z);
  ("comprehensible"%string, (1, 317494586717)%Z);
  ("overpasses"%string, (1, 317494586717)%Z);
  ("mistranslating"%string, (1, 317494586717)%Z);
  ("components"%string, (2, 317494586717)%Z);
  ("bombings"%string, (2, 317494586717)%Z);
  ("reproaches"%string, (1, 317494586717)%Z);
  ("incredulous"%string, (1, 317494586717)%Z);
  ("impotent"%string, (1, 317494586717)%Z);
  ("sandstorm"%string, (1, 317494586717)%Z);
  ("screwdriver"%string, (1, 317494586717)%Z);
  ("justly"%string, (1, 317494586717)%Z);
  ("carefulness"%string, (1, 317494586717)%Z);
  ("fallacious"%string, (1, 317494586717)%Z);
  ("fallaciousness"%string, (1, 317494586717)%Z);
  ("inextinguishable"%string, (1, 317494586717)%Z);
  ("indented"%string, (2, 317494586717)%Z);
  ("perforations"%string, (1, 317494586717)%Z);
  ("traipsing"%string, (2, 317494586717)%Z);
  ("brandished"%string, (1, 317494586717)%Z);
  ("towards"%string, (1, 317494586717)%Z);
  ("overland"%string, (1, 317494586717)%Z);
  ("entrusting"%string, (1, 317494586717)%Z);
  ("callus"%string, (1, 317494586717)%Z);
  ("brandish"%string, (1, 317494586717)%Z);
  ("contretemps"%string, (1, 317494586717)%Z);
  ("brandies"%string, (1, 317494586717)%Z);
  ("downing"%string, (2, 317494586717)%Z);
  ("heartsick"%string, (1, 317494586717)%Z);
  ("searchlights"%string, (1, 317494586717)%Z);
  ("entrail"%string, (1, 317494586717)%Z);
  ("mandible"%string, (1, 317494586717)%Z);
  ("shinbone"%string, (1, 317494586717)%Z);
  ("plasticked"%string, (1, 317494586717)%Z);
  ("indent"%string, (1, 317494586717)%Z);
  ("contrivance"%string, (3, 317494586717)%Z);
  ("compulsory"%string, (2, 317494586717)%Z);
  ("confidences"%string, (1, 317494586717)%Z);
  ("immeasurables"%string, (2, 317494586717)%Z);
  ("overvalue"%string, (1, 317494586717)%Z);
  ("branded"%string, (3, 317494586717)%Z);
  ("heartthrob"%string, (1, 317494586717)%Z);
  ("apprehensively"%string, (1, 317494586717)%Z);
  ("comportment"%string, (1, 317494586717)%Z);
  ("callow"%string, (1, 317494586717)%Z);
  ("overtipping"%string, (1, 317494586717)%Z);
  ("overtones"%string, (1, 317494586717)%Z);
  ("appropriated"%string, (3, 317494586717)%Z);
  ("greased"%string, (1, 317494586717)%Z);
  ("pip"%string, (1, 317494586717)%Z);
  ("thermostatic"%string, (1, 317494586717)%Z);
  ("immersion"%string, (1, 317494586717)%Z);
  ("overtone"%string, (1, 317494586717)%Z);
  ("reprovingly"%string, (1, 317494586717)%Z);
  ("greases"%string, (1, 317494586717)%Z);
  ("heretical"%string, (2, 317494586717)%Z);
  ("overtip"%string, (1, 317494586717)%Z);
  ("stringily"%string, (1, 317494586717)%Z);
  ("presumption"%string, (1, 317494586717)%Z);
  ("cordage"%string, (1, 317494586717)%Z);
  ("familiars"%string, (1, 317494586717)%Z);
  ("guesting"%string, (1, 317494586717)%Z);
  ("incriminated"%string, (1, 317494586717)%Z);
  ("overdone"%string, (1, 317494586717)%Z);
  ("incredulously"%string, (1, 317494586717)%Z);
  ("meandered"%string, (1, 317494586717)%Z);
  ("indefatigable"%string, (1, 317494586717)%Z);
  ("cordonazo"%string, (1, 317494586717)%Z);
  ("heartwarming"%string, (1, 317494586717)%Z);
  ("mandala"%string, (1, 317494586717)%Z);
  ("indelicately"%string, (1, 317494586717)%Z);
  ("harrow"%string, (3, 317494586717)%Z);
  ("robber"%string, (2, 317494586717)%Z);
  ("entreats"%string, (1, 317494586717)%Z);
  ("offends"%string, (1, 317494586717)%Z);
  ("reprimanding"%string, (2, 317494586717)%Z);
  ("rancor"%string, (1, 317494586717)%Z);
  ("portals"%string, (1, 317494586717)%Z);
  ("weightlessly"%string, (2, 317494586717)%Z);
  ("comprehended"%string, (1, 317494586717)%Z);
  ("overpower"%string, (1, 317494586717)%Z);
  ("overdue"%string, (1, 317494586717)%Z);
  ("increments"%string, (1, 317494586717)%Z);
  ("preset"%string, (1, 317494586717)%Z);
  ("sleepwalkers"%string, (1, 317494586717)%Z);
  ("powerlessness"%string, (3, 317494586717)%Z);
  ("compel"%string, (3, 317494586717)%Z);
  ("conflate"%string, (1, 317494586717)%Z);
  ("overstate"%string, (1, 317494586717)%Z);
  ("sandspur"%string, (1, 317494586717)%Z);
  ("companionship"%string, (1, 317494586717)%Z);
  ("compacted"%string, (1, 317494586717)%Z);
  ("overlit"%string, (1, 317494586717)%Z);
  ("manipulates"%string, (1, 317494586717)%Z);
  ("streetlamps"%string, (1, 317494586717)%Z);
  ("mistook"%string, (1, 317494586717)%Z);
  ("facet"%string, (1, 317494586717)%Z);
  ("stripper"%string, (1, 317494586717)%Z);
  ("screenplay"%string, (2, 317494586717)%Z);
  ("overtures"%string, (2, 317494586717)%Z);
  ("conflagrating"%string, (1, 317494586717)%Z);
  ("perforated"%string, (1, 317494586717)%Z);
  ("streaky"%string, (1, 317494586717)%Z);
  ("ritualistically"%string, (1, 317494586717)%Z);
  ("thermostat"%string, (2, 317494586717)%Z);
  ("screamy"%string, (1, 317494586717)%Z);
  ("approves"%string, (1, 317494586717)%Z);
  ("shines"%string, (1, 317494586717)%Z);
  ("downtrodden"%string, (1, 317494586717)%Z);
  ("examiners"%string, (1, 317494586717)%Z);
  ("contractually"%string, (1, 317494586717)%Z);
  ("auctions"%string, (1, 317494586717)%Z);
  ("hardheaded"%string, (1, 317494586717)%Z);
  ("hardhanded"%string, (1, 317494586717)%Z);
  ("overtopping"%string, (1, 317494586717)%Z);
  ("inexorable"%string, (1, 317494586717)%Z);
  ("greatcoat"%string, (1, 317494586717)%Z);
  ("strives"%string, (2, 317494586717)%Z);
  ("lightnin"%string, (1, 317494586717)%Z);
  ("helpin"%string, (1, 317494586717)%Z);
  ("relapsed"%string, (1, 317494586717)%Z);
  ("sundial"%string, (1, 317494586717)%Z);
  ("happenings"%string, (1, 317494586717)%Z);
  ("perambulation"%string, (1, 317494586717)%Z);
  ("searchingly"%string, (1, 317494586717)%Z);
  ("operative"%string, (2, 317494586717)%Z);
  ("formless"%string, (1, 317494586717)%Z);
  ("confidentially"%string, (1, 317494586717)%Z);
  ("complemented"%string, (1, 317494586717)%Z);
  ("guesthouse"%string, (1, 317494586717)%Z);
  ("lightless"%string, (1, 317494586717)%Z);
  ("imploringly"%string, (1, 317494586717)%Z);
  ("entreating"%string, (1, 317494586717)%Z);
  ("thou"%string, (2, 317494586717)%Z);
  ("implanting"%string, (2, 317494586717)%Z);
  ("gravedigger"%string, (1, 317494586717)%Z);
  ("goldfinch"%string, (1, 317494586717)%Z);
  ("compellingly"%string, (1, 317494586717)%Z);
  ("meanie"%string, (2, 317494586717)%Z);
  ("stringbean"%string, (1, 317494586717)%Z);
  ("slat"%string, (1, 317494586717)%Z);
  ("indescribably"%string, (1, 317494586717)%Z);
  ("presuppositions"%string, (1, 317494586717)%Z);
  ("colloquium"%string, (2, 317494586717)%Z);
  ("implode"%string, (1, 317494586717)%Z);
  ("brandishing"%string, (3, 317494586717)%Z);
  ("downhearted"%string, (1, 317494586717)%Z);
  ("thoughtlessly"%string, (1, 317494586717)%Z);
  ("swimmable"%string, (1, 317494586717)%Z);
  ("streetlamp"%string, (1, 317494586717)%Z);
  ("restrung"%string, (1, 317494586717)%Z);
  ("downturned"%string, (1, 317494586717)%Z);
  ("impostor"%string, (1, 317494586717)%Z);
  ("indecorous"%string, (1, 317494586717)%Z);
  ("offensively"%string, (1, 317494586717)%Z);
  ("composes"%string, (1, 317494586717)%Z);
  ("formulating"%string, (1, 317494586717)%Z);
  ("reprise"%string, (1, 317494586717)%Z);
  ("compress"%string, (1, 317494586717)%Z);
  ("indemnity"%string, (1, 317494586717)%Z);
  ("formication"%string, (1, 317494586717)%Z);
  ("mistrustfully"%string, (1, 317494586717)%Z);
  ("boyars"%string, (1, 317494586717)%Z);
  ("powerhouse"%string, (1, 317494586717)%Z);
  ("compromiser"%string, (1, 317494586717)%Z);
  ("cordons"%string, (1, 317494586717)%Z);
  ("comprehensively"%string, (1, 317494586717)%Z);
  ("confederation"%string, (1, 317494586717)%Z);
  ("stickpoke"%string, (1, 317494586717)%Z);
  ("reprogrammed"%string, (1, 317494586717)%Z);
  ("lightshape"%string, (1, 317494586717)%Z);
  ("compliant"%string, (1, 317494586717)%Z);
  ("racehorses"%string, (1, 317494586717)%Z);
  ("niceties"%string, (2, 317494586717)%Z);
  ("hardy"%string, (1, 317494586717)%Z);
  ("downplays"%string, (1, 317494586717)%Z);
  ("thereabouts"%string, (1, 317494586717)%Z);
  ("chile"%string, (1, 317494586717)%Z);
  ("sundae"%string, (1, 317494586717)%Z);
  ("repress"%string, (1, 317494586717)%Z);
  ("everlastingly"%string, (1, 317494586717)%Z);
  ("accolades"%string, (1, 317494586717)%Z);
  ("collaborate"%string, (2, 317494586717)%Z);
  ("lapsed"%string, (1, 317494586717)%Z);
  ("limbo"%string, (1, 317494586717)%Z);
  ("computerized"%string, (2, 317494586717)%Z);
  ("presenters"%string, (1, 317494586717)%Z);
  ("leases"%string, (2, 317494586717)%Z);
  ("tamale"%string, (1, 317494586717)%Z);
  ("stringing"%string, (2, 317494586717)%Z);
  ("hardback"%string, (1, 317494586717)%Z);
  ("insulating"%string, (1, 317494586717)%Z);
  ("auctioneer"%string, (1, 317494586717)%Z);
  ("downright"%string, (1, 317494586717)%Z);
  ("brokenness"%string, (1, 317494586717)%Z);
  ("heartburn"%string, (1, 317494586717)%Z);
  ("contrasts"%string, (1, 317494586717)%Z);
  ("trainman"%string, (1, 317494586717)%Z);
  ("insubordination"%string, (1, 317494586717)%Z);
  ("famished"%string, (1, 317494586717)%Z);
  ("brokenhearted"%string, (1, 317494586717)%Z);
  ("contending"%string, (1, 317494586717)%Z);
  ("impossibilities"%string, (1, 317494586717)%Z);
  ("wanderer"%string, (1, 317494586717)%Z);
  ("overeagerness"%string, (1, 317494586717)%Z);
  ("cha"%string, (1, 317494586717)%Z);
  ("overdeveloped"%string, (1, 317494586717)%Z);
  ("yearningly"%string, (1, 317494586717)%Z);
  ("greaseproof"%string, (1, 317494586717)%Z);
  ("ranches"%string, (1, 317494586717)%Z);
  ("cordwood"%string, (1, 317494586717)%Z);
  ("implement"%string, (2, 317494586717)%Z);
  ("mistrust"%string, (1, 317494586717)%Z);
  ("monetizing"%string, (1, 317494586717)%Z);
  ("kingfishers"%string, (1, 317494586717)%Z);
  ("oceanside"%string, (1, 317494586717)%Z);
  ("restorative"%string, (1, 317494586717)%Z);
  ("chambray"%string, (1, 317494586717)%Z);
  ("overriding"%string, (1, 317494586717)%Z);
  ("unveiled"%string, (3, 317494586717)%Z);
  ("downgrading"%string, (4, 317494586717)%Z);
  ("virality"%string, (1, 317494586717)%Z);
  ("overlook"%string, (1, 317494586717)%Z);
  ("homed"%string, (1, 317494586717)%Z);
  ("controversies"%string, (1, 317494586717)%Z);
  ("stickler"%string, (1, 317494586717)%Z);
  ("avoidable"%string, (1, 317494586717)%Z);
  ("inexperience"%string, (1, 317494586717)%Z);
  ("allowances"%string, (1, 317494586717)%Z);
  ("overthrown"%string, (1, 317494586717)%Z);
  ("overthrew"%string, (2, 317494586717)%Z);
  ("insurrection"%string, (1, 317494586717)%Z);
  ("overthrow"%string, (1, 317494586717)%Z);
  ("overplayed"%string, (1, 317494586717)%Z);
  ("strife"%string, (1, 317494586717)%Z);
  ("stadiums"%string, (1, 317494586717)%Z);
  ("relating"%string, (2, 317494586717)%Z);
  ("searchable"%string, (1, 317494586717)%Z);
  ("rivalry"%string, (3, 317494586717)%Z);
  ("formats"%string, (1, 317494586717)%Z);
  ("format"%string, (2, 317494586717)%Z);
  ("harried"%string, (1, 317494586717)%Z);
  ("homeowner"%string, (1, 317494586717)%Z);
  ("confine"%string, (1, 317494586717)%Z);
  ("intoxicated"%string, (1, 317494586717)%Z);
  ("overburdened"%string, (1, 317494586717)%Z);
  ("homeowners"%string, (1, 317494586717)%Z);
  ("allocation"%string, (1, 317494586717)%Z);
  ("indefensible"%string, (1, 317494586717)%Z);
  ("collaborating"%string, (1, 317494586717)%Z);
  ("operatives"%string, (2, 317494586717)%Z);
  ("bombarding"%string, (1, 317494586717)%Z);
  ("accomplices"%string, (1, 317494586717)%Z);
  ("belie"%string, (1, 317494586717)%Z);
  ("skeptics"%string, (2, 317494586717)%Z);
  ("incriminating"%string, (2, 317494586717)%Z);
  ("takers"%string, (1, 317494586717)%Z);
  ("contiguous"%string, (1, 317494586717)%Z);
  ("imports"%string, (1, 317494586717)%Z);
  ("amputation"%string, (1, 317494586717)%Z);
  ("thermoses"%string, (1, 317494586717)%Z);
  ("compressions"%string, (1, 317494586717)%Z);
  ("willies"%string, (1, 317494586717)%Z);
  ("resentments"%string, (1, 317494586717)%Z);
  ("approvingly"%string, (1, 317494586717)%Z);
  ("slated"%string, (1, 317494586717)%Z);
  ("unvetted"%string, (1, 317494586717)%Z);
  ("championing"%string, (1, 317494586717)%Z);
  ("contestant"%string, (1, 317494586717)%Z);
  ("contributors"%string, (2, 317494586717)%Z);
  ("moneybags"%string, (1, 317494586717)%Z);
  ("trapeze"%string, (1, 317494586717)%Z);
  ("overruled"%string, (1, 317494586717)%Z);
  ("headquartered"%string, (1, 317494586717)%Z);
  ("indemnifies"%string, (1, 317494586717)%Z);
  ("appellate"%string, (1, 317494586717)%Z);
  ("indemnified"%string, (1, 317494586717)%Z);
  ("visionaries"%string, (1, 317494586717)%Z);
  ("oceanographic"%string, (1, 317494586717)%Z);
  ("striders"%string, (1, 317494586717)%Z);
  ("overexaggerated"%string, (1, 317494586717)%Z);
  ("inertial"%string, (1, 317494586717)%Z);
  ("formulaic"%string, (1, 317494586717)%Z);
  ("contralto"%string, (1, 317494586717)%Z);
  ("entrepreneurial"%string, (1, 317494586717)%Z);
  ("eve"%string, (2, 317494586717)%Z);
  ("hardcore"%string, (1, 317494586717)%Z);
  ("hardscrabble"%string, (1, 317494586717)%Z);
  ("overcharged"%string, (1, 317494586717)%Z);
  ("sunderings"%string, (1, 317494586717)%Z);
  ("portent"%string, (1, 317494586717)%Z);
  ("insured"%string, (2, 317494586717)%Z);
  ("innocents"%string, (1, 317494586717)%Z);
  ("entrances"%string, (1, 317494586717)%Z);
  ("apologists"%string, (1, 317494586717)%Z);
  ("safeguards"%string, (1, 317494586717)%Z);
  ("heartbreakingly"%string, (1, 317494586717)%Z);
  ("humanizes"%string, (2, 317494586717)%Z);
  ("plastering"%string, (1, 317494586717)%Z);
  ("negativity"%string, (1, 317494586717)%Z);
  ("storytellers"%string, (1, 317494586717)%Z);
  ("affectless"%string, (1, 317494586717)%Z);
  ("thinness"%string, (1, 317494586717)%Z);
  ("repressions"%string, (1, 317494586717)%Z);
  ("trappers"%string, (1, 317494586717)%Z);
  ("appends"%string, (1, 317494586717)%Z);
  ("shipwright"%string, (2, 317494586717)%Z);
  ("stork"%string, (1, 317494586717)%Z);
  ("trapper"%string, (1, 317494586717)%Z);
  ("overproduced"%string, (1, 317494586717)%Z);
  ("insufficiently"%string, (1, 317494586717)%Z);
  ("collectivize"%string, (1, 317494586717)%Z);
  ("stringer"%string, (1, 317494586717)%Z);
  ("dailies"%string, (1, 317494586717)%Z);
  ("rite"%string, (1, 317494586717)%Z);
  ("accomplishments"%string, (1, 317494586717)%Z);
  ("overwriting"%string, (1, 317494586717)%Z);
  ("randomized"%string, (1, 317494586717)%Z);
  ("contrive"%string, (1, 317494586717)%Z);
  ("contrapuntally"%string, (1, 317494586717)%Z);
  ("avoidance"%string, (3, 317494586717)%Z);
  ("screenings"%string, (1, 317494586717)%Z);
  ("takeaways"%string, (1, 317494586717)%Z);
  ("rocky"%string, (4, 317494586717)%Z);
  ("shipboard"%string, (1, 317494586717)%Z);
  ("rockfish"%string, (1, 317494586717)%Z);
  ("lateral"%string, (2, 317494586717)%Z);
  ("manifested"%string, (1, 317494586717)%Z);
  ("manifesting"%string, (1, 317494586717)%Z);
  ("heritable"%string, (1, 317494586717)%Z);
  ("collated"%string, (1, 317494586717)%Z);
  ("echolocation"%string, (1, 317494586717)%Z);
  ("collision"%string, (1, 317494586717)%Z);
  ("championed"%string, (1, 317494586717)%Z);
  ("plasticity"%string, (1, 317494586717)%Z);
  ("relativity"%string, (2, 317494586717)%Z);
  ("mores"%string, (1, 317494586717)%Z);
  ("prescriptivists"%string, (1, 317494586717)%Z);
  ("goldmine"%string, (1, 317494586717)%Z);
  ("storied"%string, (1, 317494586717)%Z);
  ("rancher"%string, (1, 317494586717)%Z);
  ("overlying"%string, (1, 317494586717)%Z);
  ("contractual"%string, (1, 317494586717)%Z);
  ("theropod"%string, (1, 317494586717)%Z);
  ("hardener"%string, (1, 317494586717)%Z);
  ("misted"%string, (1, 317494586717)%Z);
  ("screwup"%string, (1, 317494586717)%Z);
  ("droplets"%string, (1, 317494586717)%Z);
  ("brokers"%string, (1, 317494586717)%Z);
  ("immersive"%string, (1, 317494586717)%Z);
  ("overfishing"%string, (1, 317494586717)%Z);
  ("riskier"%string, (1, 317494586717)%Z);
  ("downside"%string, (1, 317494586717)%Z);
  ("complexities"%string, (1, 317494586717)%Z);
  ("shipment"%string, (1, 317494586717)%Z);
  ("researches"%string, (1, 317494586717)%Z);
  ("portends"%string, (1, 317494586717)%Z);
  ("happenstance"%string, (1, 317494586717)%Z);
  ("headlamps"%string, (1, 317494586717)%Z);
  ("cordgrass"%string, (1, 317494586717)%Z);
  ("confederates"%string, (1, 317494586717)%Z);
  ("hardier"%string, (1, 317494586717)%Z);
  ("hardiest"%string, (1, 317494586717)%Z);
  ("restock"%string, (1, 317494586717)%Z);
  ("zipping"%string, (1, 317494586717)%Z);
  ("restring"%string, (1, 317494586717)%Z);
  ("headsets"%string, (1, 317494586717)%Z);
  ("contort"%string, (1, 317494586717)%Z);
  ("storeroom"%string, (1, 317494586717)%Z);
  ("systematics"%string, (1, 317494586717)%Z);
  ("sundry"%string, (1, 317494586717)%Z);
  ("stickily"%string, (1, 317494586717)%Z);
  ("racemes"%string, (1, 317494586717)%Z);
  ("contrapuntal"%string, (1, 317494586717)%Z);
  ("approachable"%string, (1, 317494586717)%Z);
  ("heartlike"%string, (1, 317494586717)%Z);
  ("entrapping"%string, (1, 317494586717)%Z);
  ("sleeker"%string, (1, 317494586717)%Z);
  ("homespun"%string, (1, 317494586717)%Z);
  ("affectionately"%string, (1, 317494586717)%Z);
  ("formulations"%string, (1, 317494586717)%Z);
  ("overexuberant"%string, (1, 317494586717)%Z);
  ("las"%string, (1, 317494586717)%Z);
  ("continuation"%string, (1, 317494586717)%Z);
  ("withdrawals"%string, (1, 317494586717)%Z);
  ("insurmountable"%string, (1, 317494586717)%Z);
  ("humankind"%string, (1, 317494586717)%Z);
  ("hardbound"%string, (1, 317494586717)%Z);
  ("overstay"%string, (1, 317494586717)%Z);
  ("takedown"%string, (1, 317494586717)%Z);
  ("overhauls"%string, (1, 317494586717)%Z);
  ("stinkers"%string, (1, 317494586717)%Z);
  ("overestimate"%string, (1, 317494586717)%Z);
  ("manipulating"%string, (1, 317494586717)%Z);
  ("insurers"%string, (1, 317494586717)%Z);
  ("visibility"%string, (1, 317494586717)%Z);
  ("configurable"%string, (1, 317494586717)%Z);
  ("stickier"%string, (1, 317494586717)%Z);
  ("comparably"%string, (1, 317494586717)%Z);
  ("faceplate"%string, (1, 317494586717)%Z);
  ("pipelines"%string, (1, 317494586717)%Z);
  ("withhold"%string, (4, 317494586717)%Z);
  ("systematized"%string, (1, 317494586717)%Z);
  ("compilation"%string, (1, 317494586717)%Z);
  ("shipbuilder"%string, (1, 317494586717)%Z);
  ("mistral"%string, (2, 317494586717)%Z);
  ("presenter"%string, (1, 317494586717)%Z);
  ("portmanteau"%string, (1, 317494586717)%Z);
  ("insurer"%string, (2, 317494586717)%Z);
  ("entreated"%string, (1, 317494586717)%Z);
  ("justifiable"%string, (1, 317494586717)%Z);
  ("repro"%string, (1, 317494586717)%Z);
  ("resto"%string, (1, 317494586717)%Z);
  ("res"%string, (1, 317494586717)%Z);
  ("googly"%string, (1, 317494586717)%Z);
  ("overreaching"%string, (1, 317494586717)%Z);
  ("screenwriters"%string, (1, 317494586717)%Z);
  ("indecisive"%string, (1, 317494586717)%Z);
  ("ripper"%string, (1, 317494586717)%Z);
  ("indebted"%string, (1, 317494586717)%Z);
  ("indecently"%string, (1, 317494586717)%Z);
  ("lightsaber"%string, (1, 317494586717)%Z);
  ("sabers"%string, (1, 317494586717)%Z);
  ("overtop"%string, (1, 317494586717)%Z);
  ("heretics"%string, (1, 317494586717)%Z);
  ("confluence"%string, (1, 317494586717)%Z);
  ("facemask"%string, (1, 317494586717)%Z);
  ("overflowed"%string, (1, 317494586717)%Z);
  ("innovators"%string, (1, 317494586717)%Z);
  ("immerse"%string, (1, 317494586717)%Z);
  ("leased"%string, (1, 317494586717)%Z);
  ("relatable"%string, (1, 317494586717)%Z);
  ("pressurize"%string, (1, 317494586717)%Z);
  ("they hate"%string, (1, 1)%Z)].
Definition logic_nouns : list str := map lit ["acceptance"; "access"; "accessory"; "accident"; "accommodation"; "accordion"; "accountant"; "accuracy"; "accusation"; "accuse"; "affair"; "affection"; "affiliation"; "affliction"; "allegation"; "alley"; "alligator"; "allure"; "ally"; "apology"; "app"; "appearance"; "appetizer"; "apple"; "application"; "appraisal"; "apprenticeship"; "approach"; "approbation"; "appropriation"; "approval"; "area"; "arena"; "avoidance"; "bee"; "beef"; "beekeeper"; "beekeeping"; "beer"; "belief"; "believing"; "belly"; "belonging"; "belt"; "beluga"; "bomb"; "boy"; "boyfriend"; "boyhood"; "braid"; "brain"; "branch"; "brand"; "brass"; "brick"; "briefcase"; "briefing"; "brilliance"; "broadcast"; "brochure"; "brontosaurus"; "bronze"; "brook"; "broom"; "brother"; "brow"; "butcher"; "butt"; "butter"; "butterfly"; "buttermilk"; "button"; "calculation"; "caldera"; "calf"; "call"; "car"; "carbon"; "carcass"; "card"; "cardboard"; "care"; "career"; "carnage"; "carpenter"; "carpet"; "carrousel"; "cart"; "chain"; "chair"; "chairman"; "chalk"; "challenge"; "chamber"; "champion"; "chance"; "change"; "channel"; "chaos"; "chapter"; "character"; "characteristic"; "charcoal"; "charge"; "charisma"; "charity"; "charm"; "chart"; "chase"; "chassis"; "chat"; "chick"; "chicken"; "chief"; "child"; "childbirth"; "childhood"; "chin"; "chip"; "club"; "clue"; "clump"; "clunky"; "cluster"; "collaboration"; "collaborator"; "collapse"; "colleague"; "collection"; "college"; "colony"; "color"; "colossus"; "column"; "coma"; "combat"; "combination"; "comeback"; "comedy"; "comfort"; "comforter"; "comment"; "commitment"; "committee"; "commodity"; "commonplace"; "communication"; "communist"; "community"; "company"; "compensation"; "competition"; "complacency"; "complaining"; "complaint"; "compliment"; "component"; "composer"; "composition"; "compromise"; "computer"; "comrade"; "concealment"; "concept"; "conception"; "concern"; "concert"; "conclusion"; "concrete"; "condition"; "condo"; "condolence"; "condom"; "conduit"; "conference"; "confession"; "confidence"; "confinement"; "confusion"; "congressman"; "conifer"; "connection"; "conquistador"; "conscience"; "consensus"; "consequence"; "conservation"; "conservationist"; "conspiracy"; "construction"; "consultant"; "consummation"; "container"; "contemplation"; "contender"; "content"; "contentment"; "contest"; "context"; "continent"; "contract"; "contractor"; "contraption"; "contrast"; "controversy"; "conundrum"; "convenience"; "convent"; "conversation"; "conviction"; "convoy"; "cord"; "cordgrass"; "core"; "corn"; "corner"; "corporal"; "corporation"; "corpse"; "correction"; "correspondent"; "cortex"; "couch"; "cough"; "count"; "counter"; "country"; "countryside"; "county"; "couple"; "courier"; "course"; "court"; "courtroom"; "cousin"; "deadline"; "deal"; "dealer"; "dealership"; "dealing"; "death"; "drop"; "dropping"; "duty"; "echolocation"; "enterprise"; "enthusiasm"; "entirety"; "entity"; "entomologist"; "entrance"; "entrepreneur"; "evening"; "event"; "everybody"; "everyone"; "everything"; "examination"; "example"; "face"; "facilitator"; "facility"; "fact"; "factor"; "factory"; "fall"; "fame"; "family"; "fence"; "for"; "force"; "forehead"; "forest"; "form"; "formation"; "forum"; "golf"; "grad"; "grade"; "grain"; "grammar"; "grandchild"; "granddaughter"; "grandfather"; "grandmother"; "grandson"; "grant"; "grape"; "graph"; "grasp"; "grass"; "grave"; "gravel"; "gravy"; "greenhouse"; "guest"; "guidance"; "guide"; "guilt"; "guise"; "guitar"; "hadrosaur"; "harangue"; "harbor"; "hardware"; "hardwood"; "harm"; "hat"; "hate"; "head"; "headache"; "headlight"; "health"; "hearing"; "heart"; "heat"; "heaven"; "helicopter"; "helmet"; "help"; "herb"; "herd"; "herder"; "hero"; "historian"; "history"; "hive"; "homage"; "home"; "homework"; "human"; "humanity"; "humiliation"; "humility"; "humor"; "immensity"; "immigrant"; "immigration"; "impact"; "imperative"; "impersonator"; "impetus"; "implementation"; "implication"; "import"; "impression"; "imprint"; "imprisonment"; "improvement"; "improvisation"; "inch"; "incident"; "income"; "increase"; "incumbent"; "incursion"; "independence"; "index"; "indication"; "indictment"; "indignation"; "indoor"; "industry"; "inevitability"; "innovation"; "insect"; "insectoid"; "insight"; "instance"; "institute"; "institution"; "instruction"; "instrument"; "insurance"; "integrity"; "intelligence"; "intensity"; "intent"; "intention"; "interaction"; "interest"; "intern"; "internment"; "interpretation"; "interrogation"; "intersection"; "interval"; "intervention"; "interview"; "interviewer"; "intrepid"; "issue"; "joint"; "justice"; "kind"; "king"; "land"; "landmark"; "landscape"; "lane"; "language"; "lap"; "laptop"; "lasagna"; "latecomer"; "lead"; "leader"; "leadership"; "leaf"; "league"; "leash"; "leather"; "letter"; "lettuce"; "lighter"; "lightning"; "like"; "limb"; "limestone"; "limit"; "limp"; "location"; "look"; "lot"; "man"; "management"; "manager"; "mandate"; "mane"; "maneuver"; "mania"; "manifest"; "manipulation"; "mankind"; "manner"; "manuscript"; "may"; "mayor"; "meal"; "meaning"; "measure"; "measurement"; "meat"; "meeting"; "miscarriage"; "misconduct"; "misery"; "missile"; "mission"; "mistake"; "mistress"; "monarch"; "money"; "monkey"; "monologue"; "monoxide"; "monster"; "month"; "morality"; "morass"; "more"; "morning"; "mortality"; "mosaic"; "most"; "mystery"; "name"; "nametag"; "newborn"; "news"; "newsagent"; "newspaper"; "newsstand"; "nickname"; "notation"; "note"; "nothing"; "notion"; "obscurity"; "observation"; "observer"; "obsession"; "obstacle"; "obstruction"; "ocean"; "oceanographer"; "offense"; "offering"; "office"; "officer"; "official"; "offspring"; "oneness"; "opener"; "operation"; "operator"; "outage"; "outbreak"; "outcome"; "outcry"; "outdoor"; "outfit"; "outing"; "outlet"; "outline"; "outrage"; "outside"; "outsider"; "overdrive"; "payment"; "payoff"; "payroll"; "people"; "perch"; "performance"; "performer"; "perfume"; "period"; "peripheral"; "perm"; "permission"; "peroxide"; "perpetual"; "persecution"; "person"; "personage"; "personality"; "perspective"; "pipe"; "placation"; "place"; "placenta"; "plan"; "plane"; "plank"; "plant"; "plantation"; "plastic"; "plate"; "platform"; "play"; "player"; "playground"; "pork"; "port"; "portal"; "portfolio"; "portion"; "portrait"; "pound"; "powder"; "power"; "powwow"; "race"; "rack"; "racket"; "range"; "rank"; "ray"; "relation"; "relationship"; "relay"; "reliability"; "relief"; "religion"; "repayment"; "repellent"; "repetition"; "replacement"; "replenishment"; "replication"; "report"; "repository"; "representative"; "reprieve"; "reproach"; "reputation"; "rescue"; "rescuer"; "research"; "researcher"; "resemblance"; "resentment"; "reservation"; "reserve"; "reservoir"; "residence"; "resident"; "resignation"; "resin"; "resolution"; "resolve"; "resort"; "resource"; "respect"; "response"; "responsibility"; "rest"; "restaurant"; "restoration"; "restraint"; "result"; "ride"; "rider"; "ridge"; "ridgeline"; "rip"; "risk"; "rite"; "ritual"; "rival"; "rivalry"; "river"; "riverbank"; "robot"; "rock"; "rocket"; "sabre"; "safari"; "safety"; "sand"; "sandstone"; "scenario"; "scene"; "scenery"; "scrap"; "scratch"; "scream"; "screaming"; "screen"; "screenwriter"; "script"; "scrutiny"; "sea"; "seafloor"; "seal"; "seam"; "search"; "seashell"; "seashore"; "season"; "seat"; "seawater"; "shed"; "sheep"; "sheet"; "sheeting"; "shelf"; "shell"; "shelter"; "shield"; "ship"; "shipment"; "shipwright"; "shirt"; "shit"; "skeleton"; "skepticism"; "sketch"; "slack"; "slaughter"; "slave"; "sleep"; "spider"; "spine"; "spirit"; "stadium"; "staff"; "stage"; "stair"; "stake"; "stalk"; "stall"; "stamp"; "standard"; "star"; "starboard"; "start"; "starter"; "startup"; "starvation"; "stash"; "state"; "statement"; "station"; "statistic"; "statue"; "status"; "stock"; "stocking"; "stomach"; "stone"; "stool"; "stop"; "storage"; "store"; "storm"; "story"; "storytelling"; "stranger"; "strap"; "strategy"; "straw"; "streak"; "stream"; "streambed"; "street"; "strength"; "stretch"; "strike"; "string"; "strip"; "stroke"; "stroller"; "structure"; "sun"; "sunglasses"; "sunshine"; "swig"; "swimsuit"; "swing"; "system"; "take"; "target"; "tart"; "thank"; "theatre"; "theft"; "theme"; "theory"; "therapist"; "therapy"; "thermal"; "thief"; "thing"; "thistle"; "thought"; "tool"; "tooth"; "toothbrush"; "towel"; "tower"; "town"; "townsfolk"; "track"; "tracker"; "trackpad"; "traction"; "trade"; "trader"; "tradition"; "traditionalist"; "traffic"; "trail"; "trailer"; "train"; "trainer"; "traitor"; "trajectory"; "transaction"; "transcript"; "transcriptase"; "transformation"; "transgressor"; "translation"; "translator"; "transmission"; "trap"; "trapper"; "trash"; "traveller"; "tray"; "turbulence"; "turf"; "turkey"; "turn"; "turnout"; "turtle"; "turtleneck"; "tweet"; "use"; "user"; "virologist"; "virus"; "vision"; "visit"; "visitor"; "wannabe"; "want"; "wash"; "wasp"; "waste"; "weight"; "welfare"; "whale"; "what"; "whatever"; "whoever"; "whole"; "wholesome"; "whore"; "wilderness"; "wildfire"; "wildlife"; "will"; "wit"; "word"; "work"; "worker"; "workforce"; "workshop"; "world"; "worm"; "worry"; "worth"; "wound"; "wrist"; "writer"; "writing"; "year"; "yeast"; "youth"; "zip"]%string.
Definition logic_lm : lm Z (option Z) := {| lm_max_order := 2;
  lm_details := map (fun '(t, (c, p)) => (t, {| d_count := c; d_proba := p; d_logp := Some p |})) logic_unigrams; lm_next := [] |}.
Definition sample_strs (sample : list token_tuple) : res (list str) :=
  let! l := make_labelled sample in
  let! (_, _, _, s) := logic_process ascii_udb Z (option Z) conf_leL 0%Z None conf_tokenize logic_lm conf_lx logic_nouns (l_tokens l) (l_tags l) (l_tree l) true in
  Ok (map (stuple_flatten true) s).
Definition T (w : string) (t : tag) (d : dep) (p : Z) : token_tuple := {| tt_token := lit w; tt_tag := t; tt_dep := d; tt_parent := p |}.
(** assertCountEqual *)
Definition count_equal (a b : list str) : bool :=
  forallb (fun x => length (filter (str_eqb x) a) =? length (filter (str_eqb x) b)) (a ++ b).
Definition sample_is (sample : list token_tuple) (expected : list string) : bool :=
  match sample_strs sample with Ok l => count_equal l (map lit expected) | Err _ => false end.

Example logic_test_1 : sample_is [T "In" PREP MARK (3); T "the" DET ART (3); T "last" ADJ CPL (3); T "scene" NOUN CPL (6); T "," PUNCT NODEP (-1); T "Tamara" PROPN SUBJ (6); T "drops" VERB ROOT (-1); T "her" DET ART (8); T "skepticism" NOUN OBJ (6); T "toward" PREP MARK (10); T "Sasha" PROPN CPL (8); T "and" CONJ NODEP (-1); T "allows" VERB AND (6); T "him" PRON SUBJ (15); T "to" FRAG PART (15); T "fall" VERB OBJ (12); T "asleep" FRAG PART (15); T "with" PREP MARK (20); T "his" DET ART (19); T "head" NOUN SUBJ (20); T "resting" VERB CPL (15); T "on" PREP MARK (23); T "her" DET ART (23); T "lap" NOUN CPL (20); T "." PUNCT NODEP (-1)]
  ["NCA(scene, be, last)"; "PTN(tamara, drop, skepticism)"; "NCL(skepticism, be, dropped)"; "PTOI(tamara, allow, he, fall asleep)"; "NI(head, rest)"]%string = true.
Proof. vm_compute. reflexivity. Qed.
Example logic_test_2 : sample_is [T "-" PUNCT NODEP (-1); T "Everyone" PRON SUBJ (2); T "avoids" VERB ROOT (-1); T "and" CONJ NODEP (-1); T "hates" VERB AND (2); T "him" PRON OBJ (2); T "." PUNCT NODEP (-1)]
  ["OTO(everyone, avoid, he)"; "OCL(he, be, avoided)"; "OTO(everyone, hate, he)"; "OCL(he, be, hated)"]%string = true.
Proof. vm_compute. reflexivity. Qed.
Example logic_test_3 : sample_is [T "But" CONJ MARK (3); T "do" MAT AUX (3); T "n't" ADV NEG (3); T "confuse" VERB ROOT (-1); T "Whodom" PROPN OBJ (3); T "with" FRAG PART (3); T "obscurity" NOUN IOBJ (3); T "or" CONJ NODEP (-1); T "viral" ADJ CPL (9); T "fame" NOUN OR (6); T "." PUNCT NODEP (-1)]
  ["PCL(whodom, NOT be, confused with)"; "NCA(fame, be, viral)"]%string = true.
Proof. vm_compute. reflexivity. Qed.
Example logic_test_4 : sample_is [T "Are" VERB ROOT (-1); T "n't" ADV NEG (0); T "you" PRON SUBJ (0); T "apologetic" ADJ PROP (0); T "at" ADV CPL (3); T "all" ADV FLAT (4); T "," PUNCT NODEP (-1); T "Harry" PROPN CALLEE (0); T "?" PUNCT NODEP (-1)]
  ["OCA(you, NOT be, apologetic)"]%string = true.
Proof. vm_compute. reflexivity. Qed.
Example logic_test_5 : sample_is [T "Lock" VERB ROOT (-1); T "up" FRAG PART (0); T "your" DET ART (4); T "sleepless" ADJ CPL (4); T "portals" NOUN OBJ (0); T "." PUNCT NODEP (-1)]
  ["NCA(portal, be, sleepless)"; "NCL(portal, be, locked up)"]%string = true.
Proof. vm_compute. reflexivity. Qed.
Example logic_test_6 : sample_is [T "The" DET ART (1); T "things" NOUN SUBJ (6); T "i" PRON SUBJ (3); T "did" VERB CPL (1); T "to" PREP MARK (5); T "you" PRON CPL (3); T "were" VERB ROOT (-1); T "beyond" ADV CPL (8); T "inexcusable" ADJ PROP (6); T "." PUNCT NODEP (-1)]
  ["NCA(thing, be, inexcusable)"; "OTN(i, do, thing)"; "NCL(thing, be, done)"]%string = true.
Proof. vm_compute. reflexivity. Qed.
Example logic_test_7 : sample_is [T "I" PRON SUBJ (1); T "made" VERB ROOT (-1); T "her" PRON SUBJ (3); T "swim" VERB OBJ (1); T "." PUNCT NODEP (-1)]
  ["OTOI(i, make, she, swim)"]%string = true.
Proof. vm_compute. reflexivity. Qed.
Example logic_test_8 : sample_is [T "The" DET ART (2); T "insurance" NOUN CPL (2); T "company" NOUN SUBJ (4); T "will" MAT AUX (4); T "pay" VERB ROOT (-1); T "at" ADV CPL (7); T "least" ADV FLAT (5); T "175" NUM OBJ (4); T "." PUNCT NODEP (-1)]
  ["NTU(insurance company, pay, 175)"; "UCL(175, be, paid)"]%string = true.
Proof. vm_compute. reflexivity. Qed.
Example logic_test_9 : sample_is [T "Does" MAT AUX (4); T "Tar" NOUN CPL (2); T "Sand" NOUN CPL (3); T "Oil" NOUN SUBJ (4); T "Increase" VERB ROOT (-1); T "the" DET ART (6); T "Risk" NOUN OBJ (4); T "of" PREP MARK (9); T "Pipeline" NOUN CPL (9); T "Spills" NOUN CPL (6); T "?" PUNCT NODEP (-1)]
  ["NTN(tar sand oil, increase, risk)"; "NCL(risk, be, increased)"]%string = true.
Proof. vm_compute. reflexivity. Qed.
Example logic_test_10 : sample_is [T "Heritage" PROPN SUBJ (3); T "Auctions" PROPN FLAT (0); T "will" MAT AUX (3); T "offer" VERB ROOT (-1); T "the" DET ART (7); T "1951" NUM CPL (7); T "Fender" PROPN CPL (7); T "guitar" NOUN OBJ (3); T "Sunday" PROPN CPL (3); T "." PUNCT NODEP (-1)]
  ["PTN(heritage auctions, offer, 1951 fender guitar)"; "NCL(1951 fender guitar, be, offered)"]%string = true.
Proof. vm_compute. reflexivity. Qed.
Example logic_test_11 : sample_is [T "Call" VERB ROOT (-1); T "me" PRON OBJ (0); T "Brandon" PROPN IPROP (0); T "." PUNCT NODEP (-1)]
  ["OCP(i, be called, brandon)"]%string = true.
Proof. vm_compute. reflexivity. Qed.
Example logic_test_12 : sample_is [T "They" PRON SUBJ (1); T "call" VERB ROOT (-1); T "them" PRON OBJ (1); T "light" NOUN CPL (4); T "sabers" NOUN IPROP (1); T "." PUNCT NODEP (-1)]
  ["OCN(they, be called, light saber)"]%string = true.
Proof. vm_compute. reflexivity. Qed.
Example logic_test_13 : sample_is [T "Paul" PROPN SUBJ (1); T "is" VERB ROOT (-1); T "as" ADV CPL (3); T "nice" ADJ PROP (1); T "as" PREP CMARK (5); T "John" PROPN CPL (3); T "." PUNCT NODEP (-1)]
  ["PCA(paul, be, nice)"; "PCA(john, be, nice)"]%string = true.
Proof. vm_compute. reflexivity. Qed.
Example logic_test_14 : sample_is [T "My" DET ART (1); T "computer" NOUN SUBJ (2); T "is" VERB ROOT (-1); T "as" ADV CPL (4); T "powerful" ADJ PROP (2); T "as" PREP CMARK (6); T "hers" PRON CPL (4); T "," PUNCT NODEP (-1); T "if" ADV CPL (4); T "not" ADV FLAT (8); T "more" ADV FLAT (9); T "." PUNCT NODEP (-1)]
  ["NCA(computer, be, powerful)"; "OCA(hers, be, powerful)"]%string = true.
Proof. vm_compute. reflexivity. Qed.
Example logic_test_15 : sample_is [T "Are" VERB ROOT (-1); T "you" PRON SUBJ (0); T "affected" ADJ PROP (0); T "by" PREP MARK (5); T "the" DET ART (5); T "collapse" NOUN CPL (2); T "of" PREP MARK (7); T "Carillion" PROPN CPL (5); T "?" PUNCT NODEP (-1)]
  ["OCL(you, be, affected)"; "NTO(collapse, affect, you)"]%string = true.
Proof. vm_compute. reflexivity. Qed.
Example logic_test_16 : sample_is [T "Children" NOUN SUBJ (2); T "have" MAT AUX (2); T "had" VERB ROOT (-1); T "limbs" NOUN OBJ (2); T "amputated" ADJ CPL (3); T "because" PREP MARK (8); T "of" PREP FLAT (5); T "cluster" NOUN CPL (8); T "bombs" NOUN CPL (4); T "." PUNCT NODEP (-1)]
  ["NTN(child, have, limb)"; "NCL(limb, be, amputated)"]%string = true.
Proof. vm_compute. reflexivity. Qed.
Example logic_test_17 : sample_is [T "In" PREP MARK (1); T "May" PROPN CPL (15); T "," PUNCT NODEP (-1); T "2017" NUM CPL (1); T "," PUNCT NODEP (-1); T "a" DET ART (11); T "twenty" NUM ART (8); T "two" NUM AND (6); T "year" NOUN CPL (9); T "old" ADJ CPL (10); T "Dutch" ADJ CPL (11); T "entrepreneur" NOUN SUBJ (15); T "named" ADJ CPL (11); T "Boyan" PROPN PROP (12); T "Slat" PROPN FLAT (13); T "unveiled" VERB ROOT (-1); T "a" DET ART (17); T "contraption" NOUN OBJ (15); T "that" PRON SUBJ (22); T "he" PRON SUBJ (20); T "believed" VERB CPL (22); T "would" MAT MODAL (22); T "rid" VERB CPL (17); T "the" DET ART (24); T "oceans" NOUN OBJ (22); T "of" PREP MARK (26); T "plastic" NOUN CPL (22); T "." PUNCT NODEP (-1)]
  ["NCA(entrepreneur, be, dutch)"; "NCL(entrepreneur, be, named)"; "NCP(entrepreneur, be named, boyan slat)"; "NTN(entrepreneur, unveil, contraption)"; "NCL(contraption, be, unveiled)"; "OI(he, believe)"; "NTN(contraption, rid, ocean)"; "NCL(ocean, be, rid)"]%string = true.
Proof. vm_compute. reflexivity. Qed.
Example logic_test_18 : sample_is [T "I" PRON SUBJ (1); T "think" VERB ROOT (-1); T "the" DET ART (3); T "strength" NOUN SUBJ (12); T "and" CONJ NODEP (-1); T "power" NOUN AND (3); T "that" PRON OBJ (8); T "I" PRON SUBJ (8); T "bring" VERB CPL (3); T "at" PREP MARK (11); T "this" DET ART (11); T "weight" NOUN CPL (8); T "overwhelms" VERB OBJ (1); T "a" DET ART (14); T "lot" DET ART (16); T "of" PREP MARK (14); T "people" NOUN OBJ (12); T "." PUNCT NODEP (-1)]
  ["OTN(i, bring, strength)"; "NCL(strength, be, brought)"; "OTN(i, bring, power)"; "NCL(power, be, brought)"; "OTNTN(i, think, strength, overwhelm, people)"; "OTNTN(i, think, power, overwhelm, people)"; "NCL(people, be, overwhelmed)"]%string = true.
Proof. vm_compute. reflexivity. Qed.
Example logic_test_19 : sample_is [T "The" DET ART (1); T "hive" NOUN SUBJ (2); T "takes" VERB ROOT (-1); T "care" FRAG PART (2); T "of" FRAG PART (2); T "itself" PRON OBJ (2); T "." PUNCT NODEP (-1)]
  ["NTN(hive, take care of, hive)"; "NCL(hive, be, taken care of)"]%string = true.
Proof. vm_compute. reflexivity. Qed.
Example logic_test_20 : sample_is [T "-" PUNCT NODEP (-1); T "Why" ADV CPL (2); T "is" VERB ROOT (-1); T "Robbie" PROPN CPL (5); T "'s" PREP MARK (3); T "zipper" NOUN SUBJ (2); T "down" ADV CPL (2); T "?" PUNCT NODEP (-1)]
  []%string = true.
Proof. vm_compute. reflexivity. Qed.
Example logic_test_21 : sample_is [T "McCoy" PROPN SUBJ (2); T "immediately" ADV CPL (2); T "ripped" VERB ROOT (-1); T "off" FRAG PART (2); T "his" DET ART (5); T "helmet" NOUN OBJ (2); T "and" CONJ NODEP (-1); T "was" MAT AUX (8); T "pounding" VERB AND (2); T "the" DET ART (10); T "turf" NOUN OBJ (8); T "at" PREP MARK (12); T "Hard" PROPN CPL (2); T "Rock" PROPN FLAT (12); T "Stadium" PROPN FLAT (13); T "as" PREP MARK (17); T "trainers" NOUN SUBJ (17); T "ran" VERB CPL (2); T "out" ADV CPL (17); T "to" FRAG PART (20); T "examine" VERB CPL (17); T "him" PRON OBJ (20); T "," PUNCT NODEP (-1); T "though" CONJ MARK (26); T "X-rays" NOUN SUBJ (26); T "later" ADV CPL (26); T "were" VERB CPL (20); T "negative" ADJ PROP (26); T "." PUNCT NODEP (-1)]
  ["PTN(mccoy, rip off, helmet)"; "NCL(helmet, be, ripped off)"; "OCL(he, be, examined)"; "PTN(mccoy, pound, turf)"; "NCL(turf, be, pounded)"; "NI(trainer, run)"; "NCA(x-ray, be, negative)"]%string = true.
Proof. vm_compute. reflexivity. Qed.
Example logic_test_22 : sample_is [T "What" PRON OBJ (3); T "the" DET ART (2); T "Kings" PROPN SUBJ (3); T "did" VERB SUBJ (4); T "is" VERB ROOT (-1); T "similar" ADJ PROP (4); T "to" PREP MARK (8); T "what" PRON SUBJ (8); T "happened" VERB CPL (5); T "in" PREP MARK (10); T "2016" NUM CPL (8); T "as" PREP MARK (14); T "they" PRON SUBJ (14); T "'ve" MAT AUX (14); T "helped" VERB CPL (4); T "shine" VERB OBJ (14); T "a" DET ART (17); T "light" NOUN OBJ (15); T "on" PREP MARK (21); T "an" DET ART (21); T "important" ADJ CPL (21); T "issue" NOUN CPL (17); T "related" ADJ CPL (21); T "to" PREP MARK (24); T "race" NOUN CPL (22); T "and" CONJ NODEP (-1); T "justice" NOUN AND (24); T "." PUNCT NODEP (-1)]
  ["OTOTN(they, help, they, shine, light)"; "PTO(kings, do, what)"; "OCL(what, be, done)"; "OI(what, happen)"; "NCL(light, be, shone)"; "NCA(issue, be, important)"; "NCL(issue, be, related)"]%string = true.
Proof. vm_compute. reflexivity. Qed.
Example logic_test_23 : sample_is [T "She" PROPN SUBJ (1); T "broke" VERB ROOT (-1); T "into" FRAG PART (1); T "the" DET ART (4); T "safe" NOUN OBJ (1); T "and" CONJ NODEP (-1); T "took" VERB AND (1); T "the" DET ART (8); T "money" NOUN OBJ (6); T "and" CONJ NODEP (-1); T "gold" NOUN AND (8); T "that" PRON SUBJ (12); T "was" VERB CPL (8); T "stored" ADJ PROP (12); T "in" PREP MARK (15); T "there" ADV CPL (13); T "." PUNCT NODEP (-1)]
  ["PTN(she, break into, safe)"; "NCL(safe, be, broken into)"; "PTN(she, take, money)"; "NCL(money, be, taken)"; "PTN(she, take, gold)"; "NCL(gold, be, taken)"; "NCL(money, be, stored)"; "NCL(gold, be, stored)"]%string = true.
Proof. vm_compute. reflexivity. Qed.
Example logic_test_24 : sample_is [T """" PUNCT NODEP (-1); T "Because" CONJ MARK (5); T "used-car" NOUN CPL (3); T "dealers" NOUN SUBJ (5); T "are" MAT AUX (5); T "doing" VERB CPL (9); T "well" ADV CPL (5); T "," PUNCT NODEP (-1); T "I" PRON SUBJ (9); T "guess" VERB ROOT (-1); T "that" PRON SUBJ (11); T "implies" VERB OBJ (9); T "they" PRON SUBJ (13); T "continue" VERB OBJ (11); T "to" FRAG PART (15); T "be" VERB OBJ (13); T "rivals" NOUN PROP (15); T "of" PREP MARK (19); T "used-car" NOUN CPL (19); T "operations" NOUN CPL (16); T "of" PREP MARK (22); T "new-car" NOUN CPL (22); T "dealerships" NOUN CPL (19); T "." PUNCT NODEP (-1); T """" PUNCT NODEP (-1)]
  ["OTOCN(they, continue, they, be, rival)"]%string = true.
Proof. vm_compute. reflexivity. Qed.
Example logic_test_25 : sample_is [T "People" NOUN SUBJ (7); T "on" PREP MARK (2); T "systems" NOUN CPL (0); T "like" PREP MARK (4); T "Facebook" PROPN CPL (2); T "are" MAT AUX (7); T "increasingly" ADV CPL (7); T "forming" VERB ROOT (-1); T "into" PREP MARK (11); T "'" PUNCT NODEP (-1); T "echo" NOUN CPL (11); T "chambers" NOUN CPL (7); T "'" CONJ NODEP (-1); T "of" PREP MARK (14); T "those" PRON CPL (11); T "who" PRON SUBJ (16); T "think" VERB CPL (14); T "alike" ADV CPL (16); T "." PUNCT NODEP (-1)]
  ["NI(people, form)"; "OI(those, think)"]%string = true.
Proof. vm_compute. reflexivity. Qed.
Example logic_test_26 : sample_is [T "I" PRON SUBJ (2); T "was" MAT AUX (2); T "looking" VERB ROOT (-1); T "for" FRAG PART (2); T "a" DET ART (6); T "strip" NOUN CPL (6); T "joint" NOUN OBJ (2); T "and" CONJ NODEP (-1); T "wandered" VERB AND (2); T "into" PREP MARK (13); T "a" DET ART (13); T "Writers" PROPN CPL (13); T "Guild" PROPN FLAT (11); T "meeting" NOUN CPL (8); T "by" PREP MARK (15); T "mistake" NOUN CPL (8); T "." PUNCT NODEP (-1)]
  ["OTN(i, look for, strip joint)"; "NCL(strip joint, be, looked for)"; "OI(i, wander)"]%string = true.
Proof. vm_compute. reflexivity. Qed.
Example logic_test_27 : sample_is [T "I" PRON SUBJ (1); T "heard" VERB ROOT (-1); T "myself" PRON SUBJ (3); T "screaming" VERB OBJ (1); T "." PUNCT NODEP (-1)]
  ["OTOI(i, hear, i, scream)"]%string = true.
Proof. vm_compute. reflexivity. Qed.
Example logic_test_28 : sample_is [T "According" PREP MARK (2); T "to" PREP FLAT (0); T "Daily" PROPN CPL (6); T "Maverick" PROPN FLAT (2); T "," PUNCT NODEP (-1); T "they" PRON SUBJ (6); T "were" VERB ROOT (-1); T "later" ADV CPL (8); T "allowed" ADJ PROP (6); T "into" PREP MARK (12); T "the" DET ART (12); T "Mandela" PROPN CPL (12); T "home" NOUN CPL (8); T "by" PREP MARK (16); T "the" DET ART (16); T "Mandela" PROPN CPL (16); T "family" NOUN CPL (8); T "," PUNCT NODEP (-1); T "but" CONJ MARK (21); T "could" MAT MODAL (21); T "not" ADV NEG (21); T "visit" VERB CPL (6); T "the" DET ART (23); T "gravesite" NOUN OBJ (21); T "as" PREP MARK (30); T "the" DET ART (27); T "appropriate" ADJ CPL (27); T "rituals" NOUN SUBJ (30); T "had" MAT AUX (30); T "not" ADV NEG (30); T "been" VERB CPL (21); T "performed" ADJ PROP (30); T "." PUNCT NODEP (-1)]
  ["OCL(they, be, allowed)"; "NTO(mandela family, allow, they)"; "OTN(they, NOT visit, gravesite)"; "NCL(gravesite, NOT be, visited)"; "NCA(ritual, be, appropriate)"; "NCL(ritual, NOT be, performed)"]%string = true.
Proof. vm_compute. reflexivity. Qed.
Example logic_test_29 : sample_is [T "We" PRON SUBJ (1); T "liked" VERB ROOT (-1); T "the" DET ART (3); T "name" NOUN OBJ (1); T "Alphabet" PROPN CPL (3); T "because" CONJ MARK (7); T "it" PRON SUBJ (7); T "means" VERB CPL (1); T "a" DET ART (9); T "collection" NOUN OBJ (7); T "of" PREP MARK (11); T "letters" NOUN CPL (9); T "that" PRON SUBJ (13); T "represent" VERB CPL (11); T "language" NOUN OBJ (13); T "," PUNCT NODEP (-1); T "one" PRON CPL (14); T "of" PREP MARK (22); T "humanity" NOUN CPL (22); T "'s" PREP MARK (18); T "most" ADV CPL (21); T "important" ADJ CPL (22); T "innovations" NOUN CPL (16); T "," PUNCT NODEP (-1); T "and" CONJ NODEP (-1); T "is" VERB AND (7); T "the" DET ART (27); T "core" NOUN PROP (25); T "of" PREP MARK (29); T "how" ADV CPL (27); T "we" PRON SUBJ (31); T "index" VERB CPL (29); T "with" PREP MARK (34); T "Google" PROPN CPL (34); T "search" NOUN CPL (31); T "!" PUNCT NODEP (-1)]
  ["OTN(we, like, name)"; "NCL(name, be, liked)"; "OTN(it, mean, collection)"; "NCL(collection, be, meant)"; "NTN(letter, represent, language)"; "NCL(language, be, represented)"; "NCA(innovation, be, important)"; "OI(we, index)"]%string = true.
Proof. vm_compute. reflexivity. Qed.
Example logic_test_30 : sample_is [T "Is" VERB ROOT (-1); T "the" DET ART (2); T "world" NOUN SUBJ (0); T "safer" ADJ PROP (0); T "," PUNCT NODEP (-1); T "or" CONJ NODEP (-1); T "at" PREP MARK (8); T "greater" ADJ CPL (8); T "risk" NOUN OR (3); T "than" CONJ CMARK (11); T "it" PRON SUBJ (11); T "was" VERB CPL (3); T "a" DET ART (13); T "year" NOUN CPL (11); T "ago" ADV CPL (13); T "?" PUNCT NODEP (-1)]
  ["NCA(world, be, safe)"; "NCA(risk, be, great)"]%string = true.
Proof. vm_compute. reflexivity. Qed.
