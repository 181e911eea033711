(* models/id3/enum.go:258-452 GenreMap with the constants of lines 61-255, in source order *)
From Coq Require Import List ZArith String.
Import ListNotations.
Local Open Scope string_scope.
Definition genre_map : list (Z * string) := [
  (0%Z, "Blues");
  (1%Z, "Classic Rock");
  (2%Z, "Country");
  (3%Z, "Dance");
  (4%Z, "Disco");
  (5%Z, "Funk");
  (6%Z, "Grunge");
  (7%Z, "Hip-Hop");
  (8%Z, "Jazz");
  (9%Z, "Metal");
  (10%Z, "New Age");
  (11%Z, "Oldies");
  (12%Z, "Other");
  (13%Z, "Pop");
  (14%Z, "R&B");
  (15%Z, "Rap");
  (16%Z, "Reggae");
  (17%Z, "Rock");
  (18%Z, "Techno");
  (19%Z, "Industrial");
  (20%Z, "Alternative");
  (21%Z, "Ska");
  (22%Z, "Death Metal");
  (23%Z, "Pranks");
  (24%Z, "Soundtrack");
  (25%Z, "Euro-Techno");
  (26%Z, "Ambient");
  (27%Z, "Trip-Hop");
  (28%Z, "Vocal");
  (29%Z, "Jazz+Funk");
  (30%Z, "Fusion");
  (31%Z, "Trance");
  (32%Z, "Classical");
  (33%Z, "Instrumental");
  (34%Z, "Acid");
  (35%Z, "House");
  (36%Z, "Game");
  (37%Z, "Sound Clip");
  (38%Z, "Gospel");
  (39%Z, "Noise");
  (40%Z, "Alt. Rock");
  (41%Z, "Bass");
  (42%Z, "Soul");
  (43%Z, "Punk");
  (44%Z, "Space");
  (45%Z, "Meditative");
  (46%Z, "Instrumental Pop");
  (47%Z, "Instrumental Rock");
  (48%Z, "Ethnic");
  (49%Z, "Gothic");
  (50%Z, "Darkwave");
  (51%Z, "Techno-Industrial");
  (52%Z, "Electronic");
  (53%Z, "Pop-Folk");
  (54%Z, "Eurodance");
  (55%Z, "Dream");
  (56%Z, "Southern Rock");
  (57%Z, "Comedy");
  (58%Z, "Cult");
  (59%Z, "Gangsta Rap");
  (60%Z, "Top 40");
  (61%Z, "Christian Rap");
  (62%Z, "Pop/Funk");
  (63%Z, "Jungle");
  (64%Z, "Native American");
  (65%Z, "Cabaret");
  (66%Z, "New Wave");
  (67%Z, "Psychedelic");
  (68%Z, "Rave");
  (69%Z, "Showtunes");
  (70%Z, "Trailer");
  (71%Z, "Lo-Fi");
  (72%Z, "Tribal");
  (73%Z, "Acid Punk");
  (74%Z, "Acid Jazz");
  (75%Z, "Polka");
  (76%Z, "Retro");
  (77%Z, "Musical");
  (78%Z, "Rock & Roll");
  (79%Z, "Hard Rock");
  (80%Z, "Folk");
  (81%Z, "Folk-Rock");
  (82%Z, "National Folk");
  (83%Z, "Swing");
  (84%Z, "Fast-Fusion");
  (85%Z, "Bebob");
  (86%Z, "Latin");
  (87%Z, "Revival");
  (88%Z, "Celtic");
  (89%Z, "Bluegrass");
  (90%Z, "Avantgarde");
  (91%Z, "Gothic Rock");
  (92%Z, "Progressive Rock");
  (93%Z, "Psychedelic Rock");
  (94%Z, "Symphonic Rock");
  (95%Z, "Slow Rock");
  (96%Z, "Big Band");
  (97%Z, "Chorus");
  (98%Z, "Easy Listening");
  (99%Z, "Acoustic");
  (100%Z, "Humour");
  (101%Z, "Speech");
  (102%Z, "Chanson");
  (103%Z, "Opera");
  (104%Z, "Chamber Music");
  (105%Z, "Sonata");
  (106%Z, "Symphony");
  (107%Z, "Booty Bass");
  (108%Z, "Primus");
  (109%Z, "Porn Groove");
  (110%Z, "Satire");
  (111%Z, "Slow Jam");
  (112%Z, "Club");
  (113%Z, "Tango");
  (114%Z, "Samba");
  (115%Z, "Folklore");
  (116%Z, "Ballad");
  (117%Z, "Power Ballad");
  (118%Z, "Rhythmic Soul");
  (119%Z, "Freestyle");
  (120%Z, "Duet");
  (121%Z, "Punk Rock");
  (122%Z, "Drum Solo");
  (123%Z, "A Capella");
  (124%Z, "Euro-House");
  (125%Z, "Dance Hall");
  (126%Z, "Goa");
  (127%Z, "Drum & Bass");
  (128%Z, "Club-House");
  (129%Z, "Hardcore");
  (130%Z, "Terror");
  (131%Z, "Indie");
  (132%Z, "BritPop");
  (133%Z, "Afro Punk");
  (134%Z, "Polsk Punk");
  (135%Z, "Beat");
  (136%Z, "Christian Gangsta");
  (137%Z, "Heavy Metal");
  (138%Z, "Black Metal");
  (139%Z, "Crossover");
  (140%Z, "Contemporary Christian");
  (141%Z, "Christian Rock");
  (142%Z, "Merengue");
  (143%Z, "Salsa");
  (144%Z, "Thrash Metal");
  (145%Z, "Anime");
  (146%Z, "JPop");
  (147%Z, "SynthPop");
  (148%Z, "Abstract");
  (149%Z, "Art Rock");
  (150%Z, "Baroque");
  (151%Z, "Bhangra");
  (152%Z, "Big Beat");
  (153%Z, "Breakbeat");
  (154%Z, "Chillout");
  (155%Z, "Downtempo");
  (156%Z, "Dub");
  (157%Z, "EBM");
  (158%Z, "Eclectic");
  (159%Z, "Electro");
  (160%Z, "Electroclash");
  (161%Z, "Emo");
  (162%Z, "Experimental");
  (163%Z, "Garage");
  (164%Z, "Global");
  (165%Z, "IDM");
  (166%Z, "Illbient");
  (167%Z, "Industro-Goth");
  (168%Z, "Jam Band");
  (169%Z, "Krautrock");
  (170%Z, "Leftfield");
  (171%Z, "Lounge");
  (172%Z, "Math Rock");
  (173%Z, "New Romantic");
  (174%Z, "Nu-Breakz");
  (175%Z, "Post-Punk");
  (176%Z, "Post-Rock");
  (177%Z, "Psytrance");
  (178%Z, "Shoegaze");
  (179%Z, "Space Rock");
  (180%Z, "Trop Rock");
  (181%Z, "World Music");
  (182%Z, "Neoclassical");
  (183%Z, "Audiobook");
  (184%Z, "Audio Theatre");
  (185%Z, "Neue Deutsche Welle");
  (186%Z, "Podcast");
  (187%Z, "Indie Rock");
  (188%Z, "G-Funk");
  (189%Z, "Dubstep");
  (190%Z, "Garage Rock");
  (191%Z, "Psybient");
  (255%Z, "None")
].
