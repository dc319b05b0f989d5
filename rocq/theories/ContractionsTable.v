(** * ContractionsTable: contraction tables of /repo/filters/contractions. GENERATED by tools/gen_tables.py. *)

From Verif Require Import Base.
Local Open Scope string_scope.

(** /repo/filters/contractions/generated.go:6-280 [mappings] *)
Definition contraction_mappings : list (string * string) :=
  [
   ("AREN'T", "ARE NOT");
   ("AREN’T", "ARE NOT");
   ("Aren't", "Are not");
   ("Aren’t", "Are not");
   ("CAN'T", "CAN NOT");
   ("CANNOT", "CAN NOT");
   ("CAN’T", "CAN NOT");
   ("COULD'VE", "COULD HAVE");
   ("COULDN'T", "COULD NOT");
   ("COULDN’T", "COULD NOT");
   ("COULD’VE", "COULD HAVE");
   ("Can't", "Can not");
   ("Cannot", "Can not");
   ("Can’t", "Can not");
   ("Could've", "Could have");
   ("Couldn't", "Could not");
   ("Couldn’t", "Could not");
   ("Could’ve", "Could have");
   ("DIDN'T", "DID NOT");
   ("DIDN’T", "DID NOT");
   ("DOESN'T", "DOES NOT");
   ("DOESN’T", "DOES NOT");
   ("DON'T", "DO NOT");
   ("DON’T", "DO NOT");
   ("Didn't", "Did not");
   ("Didn’t", "Did not");
   ("Doesn't", "Does not");
   ("Doesn’t", "Does not");
   ("Don't", "Do not");
   ("Don’t", "Do not");
   ("GIMME", "GIVE ME");
   ("GONNA", "GOING TO");
   ("GOTTA", "GOT TO");
   ("Gimme", "Give me");
   ("Gonna", "Going to");
   ("Gotta", "Got to");
   ("HADN'T", "HAD NOT");
   ("HADN’T", "HAD NOT");
   ("HAVEN'T", "HAVE NOT");
   ("HAVEN’T", "HAVE NOT");
   ("HE'D", "HE WOULD");
   ("HE'LL", "HE WILL");
   ("HE'S", "HE IS");
   ("HE’D", "HE WOULD");
   ("HE’LL", "HE WILL");
   ("HE’S", "HE IS");
   ("Hadn't", "Had not");
   ("Hadn’t", "Had not");
   ("Haven't", "Have not");
   ("Haven’t", "Have not");
   ("He'd", "He would");
   ("He'll", "He will");
   ("He's", "He is");
   ("He’d", "He would");
   ("He’ll", "He will");
   ("He’s", "He is");
   ("I'D", "I WOULD");
   ("I'LL", "I WILL");
   ("I'M", "I AM");
   ("I'VE", "I HAVE");
   ("I'd", "I would");
   ("I'll", "I will");
   ("I'm", "I am");
   ("I've", "I have");
   ("ISN'T", "IS NOT");
   ("ISN’T", "IS NOT");
   ("Isn't", "Is not");
   ("Isn’t", "Is not");
   ("I’D", "I WOULD");
   ("I’LL", "I WILL");
   ("I’M", "I AM");
   ("I’VE", "I HAVE");
   ("I’d", "I would");
   ("I’ll", "I will");
   ("I’m", "I am");
   ("I’ve", "I have");
   ("MIGHT'VE", "MIGHT HAVE");
   ("MIGHTN'T", "MIGHT NOT");
   ("MIGHTN’T", "MIGHT NOT");
   ("MIGHT’VE", "MIGHT HAVE");
   ("MUST'VE", "MUST HAVE");
   ("MUSTN'T", "MUST NOT");
   ("MUSTN’T", "MUST NOT");
   ("MUST’VE", "MUST HAVE");
   ("Might've", "Might have");
   ("Mightn't", "Might not");
   ("Mightn’t", "Might not");
   ("Might’ve", "Might have");
   ("Must've", "Must have");
   ("Mustn't", "Must not");
   ("Mustn’t", "Must not");
   ("Must’ve", "Must have");
   ("SHE'D", "SHE WOULD");
   ("SHE'LL", "SHE WILL");
   ("SHE'S", "SHE IS");
   ("SHE’D", "SHE WOULD");
   ("SHE’LL", "SHE WILL");
   ("SHE’S", "SHE IS");
   ("SHOULD'VE", "SHOULD HAVE");
   ("SHOULDN'T", "SHOULD NOT");
   ("SHOULDN’T", "SHOULD NOT");
   ("SHOULD’VE", "SHOULD HAVE");
   ("She'd", "She would");
   ("She'll", "She will");
   ("She's", "She is");
   ("She’d", "She would");
   ("She’ll", "She will");
   ("She’s", "She is");
   ("Should've", "Should have");
   ("Shouldn't", "Should not");
   ("Shouldn’t", "Should not");
   ("Should’ve", "Should have");
   ("THEY'D", "THEY WOULD");
   ("THEY'LL", "THEY WILL");
   ("THEY'RE", "THEY ARE");
   ("THEY'VE", "THEY HAVE");
   ("THEY’D", "THEY WOULD");
   ("THEY’LL", "THEY WILL");
   ("THEY’RE", "THEY ARE");
   ("THEY’VE", "THEY HAVE");
   ("They'd", "They would");
   ("They'll", "They will");
   ("They're", "They are");
   ("They've", "They have");
   ("They’d", "They would");
   ("They’ll", "They will");
   ("They’re", "They are");
   ("They’ve", "They have");
   ("WANNA", "WANT TO");
   ("WASN'T", "WAS NOT");
   ("WASN’T", "WAS NOT");
   ("WE'D", "WE WOULD");
   ("WE'LL", "WE WILL");
   ("WE'RE", "WE ARE");
   ("WE'VE", "WE HAVE");
   ("WE’D", "WE WOULD");
   ("WE’LL", "WE WILL");
   ("WE’RE", "WE ARE");
   ("WE’VE", "WE HAVE");
   ("WILL'VE", "WILL HAVE");
   ("WILL’VE", "WILL HAVE");
   ("WON'T", "WILL NOT");
   ("WON’T", "WILL NOT");
   ("WOULD'VE", "WOULD HAVE");
   ("WOULDN'T", "WOULD NOT");
   ("WOULDN’T", "WOULD NOT");
   ("WOULD’VE", "WOULD HAVE");
   ("Wanna", "Want to");
   ("Wasn't", "Was not");
   ("Wasn’t", "Was not");
   ("We'd", "We would");
   ("We'll", "We will");
   ("We're", "We are");
   ("We've", "We have");
   ("We’d", "We would");
   ("We’ll", "We will");
   ("We’re", "We are");
   ("We’ve", "We have");
   ("Will've", "Will have");
   ("Will’ve", "Will have");
   ("Won't", "Will not");
   ("Won’t", "Will not");
   ("Would've", "Would have");
   ("Wouldn't", "Would not");
   ("Wouldn’t", "Would not");
   ("Would’ve", "Would have");
   ("YOU'D", "YOU WOULD");
   ("YOU'LL", "YOU WILL");
   ("YOU'RE", "YOU ARE");
   ("YOU'VE", "YOU HAVE");
   ("YOU’D", "YOU WOULD");
   ("YOU’LL", "YOU WILL");
   ("YOU’RE", "YOU ARE");
   ("YOU’VE", "YOU HAVE");
   ("You'd", "You would");
   ("You'll", "You will");
   ("You're", "You are");
   ("You've", "You have");
   ("You’d", "You would");
   ("You’ll", "You will");
   ("You’re", "You are");
   ("You’ve", "You have");
   ("aren't", "are not");
   ("aren’t", "are not");
   ("can't", "can not");
   ("cannot", "can not");
   ("can’t", "can not");
   ("could've", "could have");
   ("couldn't", "could not");
   ("couldn’t", "could not");
   ("could’ve", "could have");
   ("didn't", "did not");
   ("didn’t", "did not");
   ("doesn't", "does not");
   ("doesn’t", "does not");
   ("don't", "do not");
   ("don’t", "do not");
   ("gimme", "give me");
   ("gonna", "going to");
   ("gotta", "got to");
   ("hadn't", "had not");
   ("hadn’t", "had not");
   ("haven't", "have not");
   ("haven’t", "have not");
   ("he'd", "he would");
   ("he'll", "he will");
   ("he's", "he is");
   ("he’d", "he would");
   ("he’ll", "he will");
   ("he’s", "he is");
   ("i'd", "i would");
   ("i'll", "i will");
   ("i'm", "i am");
   ("i've", "i have");
   ("isn't", "is not");
   ("isn’t", "is not");
   ("i’d", "i would");
   ("i’ll", "i will");
   ("i’m", "i am");
   ("i’ve", "i have");
   ("might've", "might have");
   ("mightn't", "might not");
   ("mightn’t", "might not");
   ("might’ve", "might have");
   ("must've", "must have");
   ("mustn't", "must not");
   ("mustn’t", "must not");
   ("must’ve", "must have");
   ("she'd", "she would");
   ("she'll", "she will");
   ("she's", "she is");
   ("she’d", "she would");
   ("she’ll", "she will");
   ("she’s", "she is");
   ("should've", "should have");
   ("shouldn't", "should not");
   ("shouldn’t", "should not");
   ("should’ve", "should have");
   ("they'd", "they would");
   ("they'll", "they will");
   ("they're", "they are");
   ("they've", "they have");
   ("they’d", "they would");
   ("they’ll", "they will");
   ("they’re", "they are");
   ("they’ve", "they have");
   ("wanna", "want to");
   ("wasn't", "was not");
   ("wasn’t", "was not");
   ("we'd", "we would");
   ("we'll", "we will");
   ("we're", "we are");
   ("we've", "we have");
   ("we’d", "we would");
   ("we’ll", "we will");
   ("we’re", "we are");
   ("we’ve", "we have");
   ("will've", "will have");
   ("will’ve", "will have");
   ("won't", "will not");
   ("won’t", "will not");
   ("would've", "would have");
   ("wouldn't", "would not");
   ("wouldn’t", "would not");
   ("would’ve", "would have");
   ("you'd", "you would");
   ("you'll", "you will");
   ("you're", "you are");
   ("you've", "you have");
   ("you’d", "you would");
   ("you’ll", "you will");
   ("you’re", "you are");
   ("you’ve", "you have")].

(** /repo/filters/contractions/generate/main.go:110-175 [contractions] *)
Definition base_contractions : list (string * string) :=
  [
   ("i'll", "i will");
   ("you'll", "you will");
   ("she'll", "she will");
   ("he'll", "he will");
   ("we'll", "we will");
   ("they'll", "they will");
   ("i'm", "i am");
   ("you're", "you are");
   ("she's", "she is");
   ("he's", "he is");
   ("we're", "we are");
   ("they're", "they are");
   ("i've", "i have");
   ("you've", "you have");
   ("we've", "we have");
   ("they've", "they have");
   ("i'd", "i would");
   ("you'd", "you would");
   ("she'd", "she would");
   ("he'd", "he would");
   ("we'd", "we would");
   ("they'd", "they would");
   ("isn't", "is not");
   ("aren't", "are not");
   ("wasn't", "was not");
   ("don't", "do not");
   ("doesn't", "does not");
   ("didn't", "did not");
   ("haven't", "have not");
   ("hadn't", "had not");
   ("can't", "can not");
   ("won't", "will not");
   ("will've", "will have");
   ("wouldn't", "would not");
   ("would've", "would have");
   ("couldn't", "could not");
   ("could've", "could have");
   ("shouldn't", "should not");
   ("should've", "should have");
   ("mightn't", "might not");
   ("might've", "might have");
   ("mustn't", "must not");
   ("must've", "must have");
   ("gonna", "going to");
   ("gotta", "got to");
   ("wanna", "want to");
   ("gimme", "give me");
   ("cannot", "can not")].

