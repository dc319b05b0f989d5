(** * NbaTable: the NBA dictionary. GENERATED by tools/gen_tables.py. *)

From Verif Require Import Base.
Local Open Scope string_scope.

(** /repo/filters/nba/generated.go:5-504 [mappings] *)
Definition nba_mappings : list (string * string) :=
  [
   ("Aaron Gordon", "Aaron Gordon");
   ("Aaron Holiday", "Aaron Holiday");
   ("Abdel Nader", "Abdel Nader");
   ("Adam Mokoka", "Adam Mokoka");
   ("Admiral Schofield", "Admiral Schofield");
   ("Al Horford", "Al Horford");
   ("Al-Farouq Aminu", "Al-Farouq Aminu");
   ("Alec Burks", "Alec Burks");
   ("Alen Smailagić, Alen Smailagic", "Alen Smailagić");
   ("Alex Caruso", "Alex Caruso");
   ("Alex Len", "Alex Len");
   ("Alfonzo McKinnie", "Alfonzo McKinnie");
   ("Alize Johnson", "Alize Johnson");
   ("Allonzo Trier", "Allonzo Trier");
   ("Amir Coffey", "Amir Coffey");
   ("Andre Drummond", "Andre Drummond");
   ("Andre Iguodala", "Andre Iguodala");
   ("Andrew Wiggins", "Andrew Wiggins");
   ("André Roberson, Andre Roberson", "André Roberson");
   ("Anfernee Simons", "Anfernee Simons");
   ("Ante Žižić, Ante Zizic", "Ante Žižić");
   ("Anthony Davis", "Anthony Davis");
   ("Anthony Tolliver", "Anthony Tolliver");
   ("Antonius Cleveland", "Antonius Cleveland");
   ("Anžejs Pasečņiks, Anzejs Pasecniks", "Anžejs Pasečņiks");
   ("Aron Baynes", "Aron Baynes");
   ("Austin Rivers", "Austin Rivers");
   ("Avery Bradley", "Avery Bradley");
   ("B. J. Johnson", "B. J. Johnson");
   ("Bam Adebayo", "Bam Adebayo");
   ("Ben McLemore", "Ben McLemore");
   ("Ben Simmons", "Ben Simmons");
   ("Bismack Biyombo", "Bismack Biyombo");
   ("Blake Griffin", "Blake Griffin");
   ("Boban Marjanović, Boban Marjanovic", "Boban Marjanović");
   ("Bobby Portis", "Bobby Portis");
   ("Bogdan Bogdanović, Bogdan Bogdanovic", "Bogdan Bogdanović");
   ("Bojan Bogdanović, Bojan Bogdanovic", "Bojan Bogdanović");
   ("Bol Bol", "Bol Bol");
   ("Brad Wanamaker", "Brad Wanamaker");
   ("Bradley Beal", "Bradley Beal");
   ("Brandon Clarke", "Brandon Clarke");
   ("Brandon Goodwin", "Brandon Goodwin");
   ("Brandon Ingram", "Brandon Ingram");
   ("Brandon Knight", "Brandon Knight");
   ("Brian Bowen", "Brian Bowen");
   ("Brook Lopez", "Brook Lopez");
   ("Bruce Brown", "Bruce Brown");
   ("Bruno Caboclo", "Bruno Caboclo");
   ("Bruno Fernando", "Bruno Fernando");
   ("Bryn Forbes", "Bryn Forbes");
   ("Buddy Hield", "Buddy Hield");
   ("CJ McCollum", "CJ McCollum");
   ("Caleb Martin", "Caleb Martin");
   ("Caleb Swanigan", "Caleb Swanigan");
   ("Cam Reddish", "Cam Reddish");
   ("Cameron Johnson", "Cameron Johnson");
   ("Cameron Reynolds", "Cameron Reynolds");
   ("Caris LeVert", "Caris LeVert");
   ("Carmelo Anthony", "Carmelo Anthony");
   ("Carsen Edwards", "Carsen Edwards");
   ("Cedi Osman", "Cedi Osman");
   ("Chandler Hutchison", "Chandler Hutchison");
   ("Charlie Brown", "Charlie Brown");
   ("Chasson Randle", "Chasson Randle");
   ("Cheick Diallo", "Cheick Diallo");
   ("Chimezie Metu", "Chimezie Metu");
   ("Chris Boucher", "Chris Boucher");
   ("Chris Chiozza", "Chris Chiozza");
   ("Chris Clemons", "Chris Clemons");
   ("Chris Paul", "Chris Paul");
   ("Chris Silva", "Chris Silva");
   ("Christian Wood", "Christian Wood");
   ("Clint Capela", "Clint Capela");
   ("Coby White", "Coby White");
   ("Cody Martin", "Cody Martin");
   ("Cody Zeller", "Cody Zeller");
   ("Collin Sexton", "Collin Sexton");
   ("Cory Joseph", "Cory Joseph");
   ("Courtney Lee", "Courtney Lee");
   ("Cristiano Felício, Cristiano Felicio", "Cristiano Felício");
   ("D'Angelo Russell", "D'Angelo Russell");
   ("D. J. Augustin", "D. J. Augustin");
   ("D. J. Wilson", "D. J. Wilson");
   ("DaQuan Jeffries", "DaQuan Jeffries");
   ("Damian Jones", "Damian Jones");
   ("Damian Lillard", "Damian Lillard");
   ("Damion Lee", "Damion Lee");
   ("Damyean Dotson", "Damyean Dotson");
   ("Daniel Gafford", "Daniel Gafford");
   ("Daniel Theis", "Daniel Theis");
   ("Danilo Gallinari", "Danilo Gallinari");
   ("Danny Green", "Danny Green");
   ("Dante Exum", "Dante Exum");
   ("Danuel House", "Danuel House");
   ("Dario Šarić, Dario Saric", "Dario Šarić");
   ("Darius Bazley", "Darius Bazley");
   ("Darius Garland", "Darius Garland");
   ("Darius Miller", "Darius Miller");
   ("De'Aaron Fox", "De'Aaron Fox");
   ("De'Andre Hunter", "De'Andre Hunter");
   ("De'Anthony Melton", "De'Anthony Melton");
   ("DeAndre Jordan", "DeAndre Jordan");
   ("DeAndre' Bembry", "DeAndre' Bembry");
   ("DeMar DeRozan", "DeMar DeRozan");
   ("DeMarre Carroll", "DeMarre Carroll");
   ("Dean Wade", "Dean Wade");
   ("Deandre Ayton", "Deandre Ayton");
   ("Dejounte Murray", "Dejounte Murray");
   ("Delon Wright", "Delon Wright");
   ("Dennis Schröder, Dennis Schroder", "Dennis Schröder");
   ("Dennis Smith", "Dennis Smith");
   ("Denzel Valentine", "Denzel Valentine");
   ("Deonte Burton", "Deonte Burton");
   ("Derrick Favors", "Derrick Favors");
   ("Derrick Jones", "Derrick Jones");
   ("Derrick Rose", "Derrick Rose");
   ("Derrick White", "Derrick White");
   ("Devin Booker", "Devin Booker");
   ("Devontae Cacok", "Devontae Cacok");
   ("Devonte' Graham", "Devonte' Graham");
   ("Dewan Hernandez", "Dewan Hernandez");
   ("Dewayne Dedmon", "Dewayne Dedmon");
   ("Dillon Brooks", "Dillon Brooks");
   ("Dion Waiters", "Dion Waiters");
   ("Domantas Sabonis", "Domantas Sabonis");
   ("Donovan Mitchell", "Donovan Mitchell");
   ("Donta Hall", "Donta Hall");
   ("Donte DiVincenzo", "Donte DiVincenzo");
   ("Dorian Finney-Smith", "Dorian Finney-Smith");
   ("Doug McDermott", "Doug McDermott");
   ("Dragan Bender", "Dragan Bender");
   ("Draymond Green", "Draymond Green");
   ("Drew Eubanks", "Drew Eubanks");
   ("Duncan Robinson", "Duncan Robinson");
   ("Dwayne Bacon", "Dwayne Bacon");
   ("Dwight Howard", "Dwight Howard");
   ("Dwight Powell", "Dwight Powell");
   ("Dylan Windler", "Dylan Windler");
   ("Dāvis Bertāns, Davis Bertans", "Dāvis Bertāns");
   ("Džanan Musa, Dzanan Musa", "Džanan Musa");
   ("E'Twaun Moore", "E'Twaun Moore");
   ("Ed Davis", "Ed Davis");
   ("Edmond Sumner", "Edmond Sumner");
   ("Elfrid Payton", "Elfrid Payton");
   ("Emmanuel Mudiay", "Emmanuel Mudiay");
   ("Enes Kanter", "Enes Kanter");
   ("Eric Bledsoe", "Eric Bledsoe");
   ("Eric Gordon", "Eric Gordon");
   ("Eric Mika", "Eric Mika");
   ("Eric Paschall", "Eric Paschall");
   ("Ersan İlyasova, Ersan Ilyasova", "Ersan İlyasova");
   ("Evan Fournier", "Evan Fournier");
   ("Evan Turner", "Evan Turner");
   ("Frank Jackson", "Frank Jackson");
   ("Frank Kaminsky", "Frank Kaminsky");
   ("Frank Mason", "Frank Mason");
   ("Frank Ntilikina", "Frank Ntilikina");
   ("Fred VanVleet", "Fred VanVleet");
   ("Furkan Korkmaz", "Furkan Korkmaz");
   ("Gabe Vincent", "Gabe Vincent");
   ("Garrett Temple", "Garrett Temple");
   ("Garrison Mathews", "Garrison Mathews");
   ("Gary Clark", "Gary Clark");
   ("Gary Harris", "Gary Harris");
   ("Gary Payton", "Gary Payton");
   ("Gary Trent", "Gary Trent");
   ("George Hill", "George Hill");
   ("Georges Niang", "Georges Niang");
   ("Giannis Antetokounmpo", "Giannis Antetokounmpo");
   ("Glenn Robinson", "Glenn Robinson");
   ("Goga Bitadze", "Goga Bitadze");
   ("Goran Dragić, Goran Dragic", "Goran Dragić");
   ("Gordon Hayward", "Gordon Hayward");
   ("Gorgui Dieng", "Gorgui Dieng");
   ("Grant Williams", "Grant Williams");
   ("Grayson Allen", "Grayson Allen");
   ("Hamidou Diallo", "Hamidou Diallo");
   ("Harrison Barnes", "Harrison Barnes");
   ("Harry Giles", "Harry Giles");
   ("Hassan Whiteside", "Hassan Whiteside");
   ("Ian Mahinmi", "Ian Mahinmi");
   ("Ignas Brazdeikis", "Ignas Brazdeikis");
   ("Isaac Bonga", "Isaac Bonga");
   ("Isaiah Hartenstein", "Isaiah Hartenstein");
   ("Isaiah Roby", "Isaiah Roby");
   ("Ish Smith", "Ish Smith");
   ("Ivica Zubac", "Ivica Zubac");
   ("J. J. Barea", "J. J. Barea");
   ("JJ Redick", "JJ Redick");
   ("Ja Morant", "Ja Morant");
   ("JaKarr Sampson", "JaKarr Sampson");
   ("JaMychal Green", "JaMychal Green");
   ("JaVale McGee", "JaVale McGee");
   ("Jabari Parker", "Jabari Parker");
   ("Jacob Evans", "Jacob Evans");
   ("Jae Crowder", "Jae Crowder");
   ("Jahlil Okafor", "Jahlil Okafor");
   ("Jake Layman", "Jake Layman");
   ("Jakob Pöltl, Jakob Poltl", "Jakob Pöltl");
   ("Jalen Brunson", "Jalen Brunson");
   ("Jalen Lecque", "Jalen Lecque");
   ("Jalen McDaniels", "Jalen McDaniels");
   ("Jamal Murray", "Jamal Murray");
   ("James Ennis", "James Ennis");
   ("James Harden", "James Harden");
   ("James Johnson", "James Johnson");
   ("Jared Dudley", "Jared Dudley");
   ("Jaren Jackson", "Jaren Jackson");
   ("Jarred Vanderbilt", "Jarred Vanderbilt");
   ("Jarrell Brantley", "Jarrell Brantley");
   ("Jarrett Allen", "Jarrett Allen");
   ("Jarrett Culver", "Jarrett Culver");
   ("Javonte Green", "Javonte Green");
   ("Jaxson Hayes", "Jaxson Hayes");
   ("Jaylen Brown", "Jaylen Brown");
   ("Jaylen Hoard", "Jaylen Hoard");
   ("Jaylen Nowell", "Jaylen Nowell");
   ("Jayson Tatum", "Jayson Tatum");
   ("Jeff Green", "Jeff Green");
   ("Jeff Teague", "Jeff Teague");
   ("Jerami Grant", "Jerami Grant");
   ("Jeremiah Martin", "Jeremiah Martin");
   ("Jeremy Lamb", "Jeremy Lamb");
   ("Jerome Robinson", "Jerome Robinson");
   ("Jevon Carter", "Jevon Carter");
   ("Jimmy Butler", "Jimmy Butler");
   ("Joakim Noah", "Joakim Noah");
   ("Joe Chealey", "Joe Chealey");
   ("Joe Harris", "Joe Harris");
   ("Joe Ingles", "Joe Ingles");
   ("Joel Embiid", "Joel Embiid");
   ("John Collins", "John Collins");
   ("John Henson", "John Henson");
   ("John Konchar", "John Konchar");
   ("John Wall", "John Wall");
   ("Johnathan Motley", "Johnathan Motley");
   ("Johnathan Williams", "Johnathan Williams");
   ("Jonas Valančiūnas, Jonas Valanciunas", "Jonas Valančiūnas");
   ("Jonathan Isaac", "Jonathan Isaac");
   ("Jontay Porter", "Jontay Porter");
   ("Jordan Bone", "Jordan Bone");
   ("Jordan Clarkson", "Jordan Clarkson");
   ("Jordan McLaughlin", "Jordan McLaughlin");
   ("Jordan McRae", "Jordan McRae");
   ("Jordan Poole", "Jordan Poole");
   ("Josh Gray", "Josh Gray");
   ("Josh Hart", "Josh Hart");
   ("Josh Jackson", "Josh Jackson");
   ("Josh Okogie", "Josh Okogie");
   ("Josh Reaves", "Josh Reaves");
   ("Josh Richardson", "Josh Richardson");
   ("Jrue Holiday", "Jrue Holiday");
   ("Juan Hernangómez, Juan Hernangomez", "Juan Hernangómez");
   ("Juan Toscano-Anderson", "Juan Toscano-Anderson");
   ("Julius Randle", "Julius Randle");
   ("Justin Holiday", "Justin Holiday");
   ("Justin Jackson", "Justin Jackson");
   ("Justin James", "Justin James");
   ("Justin Wright-Foreman", "Justin Wright-Foreman");
   ("Justise Winslow", "Justise Winslow");
   ("Jusuf Nurkić, Jusuf Nurkic", "Jusuf Nurkić");
   ("Juwan Morgan", "Juwan Morgan");
   ("KZ Okpala", "KZ Okpala");
   ("Kadeem Allen", "Kadeem Allen");
   ("Karl-Anthony Towns", "Karl-Anthony Towns");
   ("Kawhi Leonard", "Kawhi Leonard");
   ("Keita Bates-Diop", "Keita Bates-Diop");
   ("Kelan Martin", "Kelan Martin");
   ("Keldon Johnson", "Keldon Johnson");
   ("Kelly Olynyk", "Kelly Olynyk");
   ("Kelly Oubre", "Kelly Oubre");
   ("Kemba Walker", "Kemba Walker");
   ("Kendrick Nunn", "Kendrick Nunn");
   ("Kenny Wooten", "Kenny Wooten");
   ("Kenrich Williams", "Kenrich Williams");
   ("Kent Bazemore", "Kent Bazemore");
   ("Kentavious Caldwell-Pope", "Kentavious Caldwell-Pope");
   ("Kevin Durant", "Kevin Durant");
   ("Kevin Hervey", "Kevin Hervey");
   ("Kevin Huerter", "Kevin Huerter");
   ("Kevin Knox", "Kevin Knox");
   ("Kevin Love", "Kevin Love");
   ("Kevin Porter", "Kevin Porter");
   ("Kevon Looney", "Kevon Looney");
   ("Khem Birch", "Khem Birch");
   ("Khris Middleton", "Khris Middleton");
   ("Khyri Thomas", "Khyri Thomas");
   ("Klay Thompson", "Klay Thompson");
   ("Kobi Simmons", "Kobi Simmons");
   ("Kostas Antetokounmpo", "Kostas Antetokounmpo");
   ("Kris Dunn", "Kris Dunn");
   ("Kristaps Porziņģis, Kristaps Porzingis", "Kristaps Porziņģis");
   ("Ky Bowman", "Ky Bowman");
   ("Kyle Alexander", "Kyle Alexander");
   ("Kyle Anderson", "Kyle Anderson");
   ("Kyle Guy", "Kyle Guy");
   ("Kyle Korver", "Kyle Korver");
   ("Kyle Kuzma", "Kyle Kuzma");
   ("Kyle Lowry", "Kyle Lowry");
   ("Kyle O'Quinn", "Kyle O'Quinn");
   ("Kyrie Irving", "Kyrie Irving");
   ("LaMarcus Aldridge", "LaMarcus Aldridge");
   ("Landry Shamet", "Landry Shamet");
   ("Langston Galloway", "Langston Galloway");
   ("Larry Nance", "Larry Nance");
   ("Lauri Markkanen", "Lauri Markkanen");
   ("LeBron James", "LeBron James");
   ("Lonnie Walker", "Lonnie Walker");
   ("Lonzo Ball", "Lonzo Ball");
   ("Lou Williams", "Lou Williams");
   ("Louis King", "Louis King");
   ("Luguentz Dort", "Luguentz Dort");
   ("Luka Dončić, Luka Doncic", "Luka Dončić");
   ("Luka Šamanić, Luka Samanic", "Luka Šamanić");
   ("Luke Kennard", "Luke Kennard");
   ("Luke Kornet", "Luke Kornet");
   ("Malcolm Brogdon", "Malcolm Brogdon");
   ("Malcolm Miller", "Malcolm Miller");
   ("Malik Beasley", "Malik Beasley");
   ("Malik Monk", "Malik Monk");
   ("Marc Gasol", "Marc Gasol");
   ("Marco Belinelli", "Marco Belinelli");
   ("Marcus Morris", "Marcus Morris");
   ("Marcus Smart", "Marcus Smart");
   ("Marial Shayok", "Marial Shayok");
   ("Mario Hezonja", "Mario Hezonja");
   ("Markelle Fultz", "Markelle Fultz");
   ("Markieff Morris", "Markieff Morris");
   ("Marko Gudurić, Marko Guduric", "Marko Gudurić");
   ("Marquese Chriss", "Marquese Chriss");
   ("Marvin Bagley", "Marvin Bagley");
   ("Marvin Williams", "Marvin Williams");
   ("Mason Plumlee", "Mason Plumlee");
   ("Matisse Thybulle", "Matisse Thybulle");
   ("Matt Mooney", "Matt Mooney");
   ("Matt Thomas", "Matt Thomas");
   ("Matthew Dellavedova", "Matthew Dellavedova");
   ("Maurice Harkless", "Maurice Harkless");
   ("Max Strus", "Max Strus");
   ("Maxi Kleber", "Maxi Kleber");
   ("Melvin Frazier", "Melvin Frazier");
   ("Meyers Leonard", "Meyers Leonard");
   ("Mfiondu Kabengele", "Mfiondu Kabengele");
   ("Michael Carter-Williams", "Michael Carter-Williams");
   ("Michael Frazier", "Michael Frazier");
   ("Michael Kidd-Gilchrist", "Michael Kidd-Gilchrist");
   ("Michael Porter", "Michael Porter");
   ("Mikal Bridges", "Mikal Bridges");
   ("Mike Conley", "Mike Conley");
   ("Mike Muscala", "Mike Muscala");
   ("Mike Scott", "Mike Scott");
   ("Miles Bridges", "Miles Bridges");
   ("Mitchell Robinson", "Mitchell Robinson");
   ("Miye Oni", "Miye Oni");
   ("Mohamed Bamba", "Mohamed Bamba");
   ("Montrezl Harrell", "Montrezl Harrell");
   ("Monté Morris, Monte Morris", "Monté Morris");
   ("Moritz Wagner", "Moritz Wagner");
   ("Moses Brown", "Moses Brown");
   ("Mychal Mulder", "Mychal Mulder");
   ("Myles Turner", "Myles Turner");
   ("Nassir Little", "Nassir Little");
   ("Naz Mitrou-Long", "Naz Mitrou-Long");
   ("Naz Reid", "Naz Reid");
   ("Nemanja Bjelica", "Nemanja Bjelica");
   ("Nerlens Noel", "Nerlens Noel");
   ("Nickeil Alexander-Walker", "Nickeil Alexander-Walker");
   ("Nicolas Batum", "Nicolas Batum");
   ("Nicolas Claxton", "Nicolas Claxton");
   ("Nicolò Melli, Nicolo Melli", "Nicolò Melli");
   ("Nigel Williams-Goss", "Nigel Williams-Goss");
   ("Nikola Jokić, Nikola Jokic", "Nikola Jokić");
   ("Nikola Vučević, Nikola Vucevic", "Nikola Vučević");
   ("Noah Vonleh", "Noah Vonleh");
   ("Norman Powell", "Norman Powell");
   ("Norvel Pelle", "Norvel Pelle");
   ("OG Anunoby", "OG Anunoby");
   ("Omari Spellman", "Omari Spellman");
   ("Oshae Brissett", "Oshae Brissett");
   ("Otto Porter", "Otto Porter");
   ("P. J. Dozier", "P. J. Dozier");
   ("P. J. Tucker", "P. J. Tucker");
   ("P. J. Washington", "P. J. Washington");
   ("Pascal Siakam", "Pascal Siakam");
   ("Pat Connaughton", "Pat Connaughton");
   ("Patrick Beverley", "Patrick Beverley");
   ("Patrick McCaw", "Patrick McCaw");
   ("Patrick Patterson", "Patrick Patterson");
   ("Patty Mills", "Patty Mills");
   ("Paul George", "Paul George");
   ("Paul Millsap", "Paul Millsap");
   ("Paul Watson", "Paul Watson");
   ("Quinn Cook", "Quinn Cook");
   ("Quinndary Weatherspoon", "Quinndary Weatherspoon");
   ("RJ Barrett", "RJ Barrett");
   ("Rajon Rondo", "Rajon Rondo");
   ("Raul Neto", "Raul Neto");
   ("Ray Spalding", "Ray Spalding");
   ("Rayjon Tucker", "Rayjon Tucker");
   ("Reggie Bullock", "Reggie Bullock");
   ("Reggie Jackson", "Reggie Jackson");
   ("Richaun Holmes", "Richaun Holmes");
   ("Ricky Rubio", "Ricky Rubio");
   ("Robert Covington", "Robert Covington");
   ("Robert Williams", "Robert Williams");
   ("Robin Lopez", "Robin Lopez");
   ("Rodions Kurucs", "Rodions Kurucs");
   ("Rodney Hood", "Rodney Hood");
   ("Rodney McGruder", "Rodney McGruder");
   ("Romeo Langford", "Romeo Langford");
   ("Rondae Hollis-Jefferson", "Rondae Hollis-Jefferson");
   ("Royce O'Neale", "Royce O'Neale");
   ("Rudy Gay", "Rudy Gay");
   ("Rudy Gobert", "Rudy Gobert");
   ("Rui Hachimura", "Rui Hachimura");
   ("Russell Westbrook", "Russell Westbrook");
   ("Ryan Arcidiacono", "Ryan Arcidiacono");
   ("Sekou Doumbouya", "Sekou Doumbouya");
   ("Semi Ojeleye", "Semi Ojeleye");
   ("Serge Ibaka", "Serge Ibaka");
   ("Seth Curry", "Seth Curry");
   ("Shabazz Napier", "Shabazz Napier");
   ("Shai Gilgeous-Alexander", "Shai Gilgeous-Alexander");
   ("Shake Milton", "Shake Milton");
   ("Shaquille Harrison", "Shaquille Harrison");
   ("Sheldon Mac", "Sheldon Mac");
   ("Sir'Dominic Pointer", "Sir'Dominic Pointer");
   ("Skal Labissière, Skal Labissiere", "Skal Labissière");
   ("Solomon Hill", "Solomon Hill");
   ("Spencer Dinwiddie", "Spencer Dinwiddie");
   ("Stanley Johnson", "Stanley Johnson");
   ("Stephen Curry", "Stephen Curry");
   ("Sterling Brown", "Sterling Brown");
   ("Steven Adams", "Steven Adams");
   ("Sviatoslav Mykhailiuk", "Sviatoslav Mykhailiuk");
   ("T. J. Leaf", "T. J. Leaf");
   ("T. J. McConnell", "T. J. McConnell");
   ("T. J. Warren", "T. J. Warren");
   ("Tacko Fall", "Tacko Fall");
   ("Taj Gibson", "Taj Gibson");
   ("Talen Horton-Tucker", "Talen Horton-Tucker");
   ("Tariq Owens", "Tariq Owens");
   ("Taurean Prince", "Taurean Prince");
   ("Terance Mann", "Terance Mann");
   ("Terence Davis", "Terence Davis");
   ("Terrance Ferguson", "Terrance Ferguson");
   ("Terrence Ross", "Terrence Ross");
   ("Terry Rozier", "Terry Rozier");
   ("Thabo Sefolosha", "Thabo Sefolosha");
   ("Thaddeus Young", "Thaddeus Young");
   ("Thanasis Antetokounmpo", "Thanasis Antetokounmpo");
   ("Theo Pinson", "Theo Pinson");
   ("Thomas Bryant", "Thomas Bryant");
   ("Thon Maker", "Thon Maker");
   ("Tim Hardaway", "Tim Hardaway");
   ("Timothé Luwawu-Cabarrot, Timothe Luwawu-Cabarrot", "Timothé Luwawu-Cabarrot");
   ("Tobias Harris", "Tobias Harris");
   ("Tomáš Satoranský, Tomas Satoransky", "Tomáš Satoranský");
   ("Tony Bradley", "Tony Bradley");
   ("Tony Snell", "Tony Snell");
   ("Torrey Craig", "Torrey Craig");
   ("Trae Young", "Trae Young");
   ("Tremont Waters", "Tremont Waters");
   ("Treveon Graham", "Treveon Graham");
   ("Trevor Ariza", "Trevor Ariza");
   ("Trey Lyles", "Trey Lyles");
   ("Tristan Thompson", "Tristan Thompson");
   ("Troy Brown", "Troy Brown");
   ("Troy Daniels", "Troy Daniels");
   ("Ty Jerome", "Ty Jerome");
   ("Tyler Herro", "Tyler Herro");
   ("Tyson Chandler", "Tyson Chandler");
   ("Tyus Jones", "Tyus Jones");
   ("Udonis Haslem", "Udonis Haslem");
   ("Vic Law", "Vic Law");
   ("Victor Oladipo", "Victor Oladipo");
   ("Vince Carter", "Vince Carter");
   ("Vincent Poirier", "Vincent Poirier");
   ("Vlatko Čančar, Vlatko Cancar", "Vlatko Čančar");
   ("Wayne Ellington", "Wayne Ellington");
   ("Wendell Carter", "Wendell Carter");
   ("Wenyen Gabriel", "Wenyen Gabriel");
   ("Wes Iwundu", "Wes Iwundu");
   ("Wesley Matthews", "Wesley Matthews");
   ("Will Barton", "Will Barton");
   ("William Howard", "William Howard");
   ("Willie Cauley-Stein", "Willie Cauley-Stein");
   ("Willy Hernangómez, Willy Hernangomez", "Willy Hernangómez");
   ("Wilson Chandler", "Wilson Chandler");
   ("Yogi Ferrell", "Yogi Ferrell");
   ("Yuta Watanabe", "Yuta Watanabe");
   ("Zach Collins", "Zach Collins");
   ("Zach LaVine", "Zach LaVine");
   ("Zhaire Smith", "Zhaire Smith");
   ("Zion Williamson", "Zion Williamson");
   ("Zylan Cheatham", "Zylan Cheatham");
   ("Élie Okobo, Elie Okobo", "Élie Okobo")].

