(** The registry of known bakers: rust/app/vendor/BakersRegistryCoreUnfilteredData.json,
    all entries in file order, used by rust/app/src/parser/operations/delegation.rs
    l.316-322. Names are UTF-8. *)
From Coq Require Import String List.
From Verif Require Import Base Text.
Import ListNotations.

(** Account and name of each entry. *)
Definition registry_strings : list (string * string) := [
  ("tz1eY5Aqa1kXDFoiebL28emyXFoneAoVg1zh", "Obsidian");
  ("tz1TDSmoZXwVevLTEvKCTHWpomG76oC9S2fJ", "Tezos Capital Legacy");
  ("tz1Tnjaxk6tbAeC2TmMApPh8UsrEVQvhHvx5", "Crypto Delegate");
  ("tz1WCd2jm4uSt4vntk4vSuUWoZQGhLcDuR9q", "Happy Tezos");
  ("tz3e75hU4EhDU3ukyJueh5v6UvEHzGwkg3yC", "At James");
  ("tz1VmiY38m3y95HqQLjMwqnMS7sdMfGomzKi", "Lucid Mining");
  ("tz1P2Po7YM526ughEsRbY4oR9zaUPDZjxFrb", "P2P Validator");
  ("tz1NortRftucvAkD1J58L32EhSVrQEWJCEnB", "Bake'n'Rolls");
  ("tz1g8vkmcde6sWKaG2NN9WKzCkDM6Rziq194", "StakeNow");
  ("tz1c3Wh8gNMMsYwZd67JndQpYxdaaPUV27E7", "TezosBC");
  ("tz1Xek93iSXXckyQ6aYLVS5Rr2tge2en7ZxS", "XTZ Delegate");
  ("tz1Ldzz6k1BHdhuKvAtMRX7h5kJSMHESMHLC", "PayTezos");
  ("tz3adcvQaKXTCg12zbninqo3q8ptKKtDFTLv", "Tezzigator");
  ("tz1d6Fx42mYgVFnHUW8T8A7WBfJ6nD9pVok8", "My Tezos Baking");
  ("tz1aqcYgG6NuViML5vdWhohHJBYxcDVLNUsE", "LetzBake!");
  ("tz1KksC8RvjUWAbXYJuNrUbontHGor26Cztk", "Bakednode");
  ("tz1W5VkdB5s7ENMESVBtwyt9kyvLqPcUczRT", "Tezgate");
  ("tz1cYufsxHXJcvANhvS55h3aY32a9BAFB494", "BAKER-IL");
  ("tz1MDKr36woXfVtrtXfV1ppPJERxPcm2wU6V", "Stack Tezos");
  ("tz2FCNBrERXtaTtNX6iimR1UJ5JSDxvdHM93", "Stake.fish");
  ("tz1MXFrtZoaXckE41bjUCSjAjAap3AFDSr3N", "Everstake Legacy");
  ("tz1XhnCdVENzgko5x1MMswLHSoQbJ5NPwLZ6", "Anonstake");
  ("tz2PdGc7U5tiyqPgTSgqCDct94qd6ovQwP6u", "Tezos Capital");
  ("tz1KtvGSYU5hdKD288a1koTBURWYuADJGrLE", "Ø Crypto Pool");
  ("tz1ei4WtWEMEJekSv8qDnu9PExG6Q8HgRGr3", "Bake Tz");
  ("tz1TcH4Nb3aHNDJ7CGZhU7jgAK1BkSP4Lxds", "XTZ Antipodes");
  ("tz1fZ767VDbqx4DeKiFswPSHh513f51mKEUZ", "Tezos Bakery");
  ("tz1SohptP53wDPZhzTWzDUFAUcWF6DMBpaJV", "Hayek Lab");
  ("tz1go7f6mEQfT2xX2LuHAqgnRGN6c2zHPf5c", "Stakery");
  ("tz1NpWrAyDL9k2Lmnyxcgr9xuJakbBxdq7FB", "Gate.io");
  ("tz1NRGxXV9h6SdNaZLcgmjuLx3hyy2f8YoGN", "Bake ꜩ For Me");
  ("tz1cb8xcmJWcdVU7cNAd93MfEReorvP52P8x", "Mint Capital");
  ("tz1MQJPGNMijnXnVoBENFz9rUhaPt3S7rWoz", "Tezmania");
  ("tz1Z1tMai15JWUWeN2PKL9faXXVPMuWamzJj", "XTZ Land");
  ("tz1YKh8T79LAtWxX29N5VedCSmaZGw9LNVxQ", "TezosBr");
  ("tz1S1Aew75hMrPUymqenKfHo8FspppXKpW7h", "Tezos Mars");
  ("tz1aiYKXmSRckyJ9EybKmpVry373rfyngJU8", "View Nodes");
  ("tz1Kf25fX1VdmYGSEzwFy1wNmkbSEZ2V83sY", "Tezos Seoul");
  ("tz1MJx9vhaNRSimcuXPK2rW4fLccQnDAnVKJ", "AirGap");
  ("tz1b9MYGrbN1NAxphLEsPPNT9JC7aNFc5nA4", "TezosRUs");
  ("tz1bLwpPfr3xqy1gWBF4sGvv8bLJyPHR11kx", "Tezos Hot Bakery");
  ("tz1LLNkQK4UQV6QcFShiXJ2vT2ELw449MzAA", "TezoSteam");
  ("tz1hThMBD8jQjFt78heuCnKxJnJtQo9Ao25X", "Tezos Chef");
  ("tz1bkg7rynMXVcjomoe3diB4URfv8GU2GAcw", "Tz Bank");
  ("tz1KzSC1J9aBxKp7u8TUnpN8L7S65PBRkgdF", "HashQuark");
  ("tz1iMAHAVpkCVegF9FLGWUpQQeiAHh4ffdLQ", "Wetez");
  ("tz1YhNsiRRU8aHNGg7NK3uuP6UDAyacJernB", "Tez Baguette");
  ("tz1bkKTY9Y3rTsHbpr2fbGUCRm736LLquQfM", "Tezos Tacos");
  ("tz1cX93Q3KsiTADpCC4f12TBvAmS5tw7CW19", "Tz Bakery");
  ("tz1Lhf4J9Qxoe3DZ2nfe8FGDnvVj7oKjnMY6", "Tez Baker");
  ("tz1KfEsrtDaA1sX7vdM4qmEPWuSytuqCDp5j", "XTZ Master");
  ("tz1Pwgj6j55akKCyvTwwr9X4np1RskSXpQY4", "Validators.com");
  ("tz1aKxnrzx5PXZJe7unufEswVRCMU9yafmfb", "Tezos Canada");
  ("tz1X1fpAZtwQk94QXUgZwfgsvkQgyc2KHp9d", "ownBLOCK (OLD)");
  ("tz1PWCDnz783NNGGQjEFFsHtrcK5yBW4E2rm", "Melange");
  ("tz1gk3TDbU7cJuiBRMhwQXVvgDnjsxuWhcEA", "Airfoil");
  ("tz1P9GwUWeAyPoT3ZwBc6gWCTP9exEPaVU3w", "XTZ Bakery I");
  ("tz1iZEKy4LaAjnTmn2RuGDf2iqdAQKnRi8kY", "Tezzigator Legacy");
  ("tz1TaLYBeGZD3yKVHQGBM857CcNnFFNceLYh", "Tezocracy");
  ("tz1c7pVR4w3KSQarJdBeh4NS2WxMUFBy1rHQ", "MyBakerSpace");
  ("tz1W1f1JrE7VsqgpUpj1iiDobqP5TixgZhDk", "Elite Tezos");
  ("tz1fUjvVhJrHLZCbhPNvDRckxApqbkievJHN", "Tezzieland");
  ("tz1Z7bxn1M4ewEWUekPaZfiwtKQRFroezUjY", "Tezos Bay");
  ("tz1WBfwbT66FC6BTLexc2BoyCCBM9LG7pnVW", "888 XTZ");
  ("tz1eEnQhbwf6trb8Q8mPb2RaPkNk2rN7BKi8", "Cryptium Labs");
  ("tz1RCFbB9GpALpsZtu6J58sb74dm8qe6XBzv", "Staked");
  ("tz1Lc87p6zRaDwzJs9kHvdpm7XzeWE8QTwVB", "Dash Master");
  ("tz1fb7c66UwePkkfDXz4ajFaBP9hVNLdS7JJ", "Tezos.nu");
  ("tz1b7YSEeNRqgmjuX4d4aiai2sQTF4A7WBZf", "Tezos Japan");
  ("tz1LmaFsWRkjr7QMCx5PtV6xTUz3AmEpKQiF", "Blockpower");
  ("tz1UUgPwikRHW1mEyVZfGYy6QaxrY6Y7WaG5", "Tez Patisserie");
  ("tz1Zhv3RkfU2pHrmaiDyxp7kFZpZrUCu1CiF", "TZ Bake");
  ("tz1irJKkXS2DBWkU1NnmFQx1c1L7pbGg4yhk", "Coinbase Custody");
  ("tz1R6Ej25VSerE3MkSoEEeBjKHCDTFbpKuSX", "TezosSEAsia");
  ("tz1dhwJY5B1jKdkF7zcyu1v6EBEQjpGmAp1E", "Tezzz");
  ("tz1Zcxkfa5jKrRbBThG765GP29bUCU3C4ok5", "Tezz City");
  ("tz1VYQpZvjVhv1CdcENuCNWJQXu1TWBJ8KTD", "Tezos Tokyo");
  ("tz1bakeKFwqmtLBzghw8CFnqFvRxLj849Vfg", "Tez Milk");
  ("tz1YdCPrYbksK7HCoYKDyzgfXwY16Fy9rrGa", "Norn Delegate");
  ("tz1PeZx7FXy7QRuMREGXGxeipb24RsMMzUNe", "Tezos Panda");
  ("tz1fvBC1cHJzPtUW3ZKd2GZDj7P4XVuLk9vW", "Steaker");
  ("tz1Vtimi84kLh9RANfRVX2JvYtP4NPCT1aFm", "TezTech Labs");
  ("tz1QLXqnfN51dkjeghXvKHkJfhvGiM5gK4tc", "Fresh Tezos");
  ("tz1ZuxNqUk7odhMC4Bfx2NXXeej9ReXKewa8", "SNZ Holding");
  ("tz1UJvHTgpVzcKWhTazGxVcn5wsHru5Gietg", "Tezry");
  ("tz3bEQoFCZEEfZMskefZ8q8e4eiHH1pssRax", "Ceibo XTZ");
  ("tz1VHFxUuBhwopxC9YC9gm5s2MHBHLyCtvN1", "Hyperblocks");
  ("tz1SYq214SCBy9naR6cvycQsYcUGpBqQAE8d", "Coinone");
  ("tz1V2FYediKBAEaTpXXJBSjuQpjkyCzrTSiE", "Stake House");
  ("tz1bRaSjKZrSrSeQHBDiCqjKXqtZYZM1t8FW", "Imma Baker");
  ("tz1Vyuu4EJ5Nym4JcrfRLnp3hpaq1DSEp1Ke", "POS Bakerz");
  ("tz1hAYfexyzPGG6RhZZMpDvAHifubsbb6kgn", "Tezos Suisse");
  ("tz1RV1MBbZMR68tacosb7Mwj6LkbPSUS1er1", "Baking Tacos");
  ("tz1gg5bjopPcr9agjamyu9BbXKLibNc2rbAq", "Hodl.farm");
  ("tz1djEKk6j1FqigTgbRsunbnY9BB7qsn1aAQ", "Tezos Ninja");
  ("tz1coHzgoQYRu1Ezn5QChfFEjwTrBzGNQT6U", "Clutch Oven");
  ("tz1VceyYUpq1gk5dtp6jXQRtCtY8hm5DKt72", "Tezetetic");
  ("tz1bHzftcTKZMTZgLLtnrXydCm6UEqf4ivca", "Tezos Vote");
  ("tz1LBEKXaxQbd5Gtzbc1ATCwc3pppu81aWGc", "Tez-Baking");
  ("tz1TnYeuR4HhUTapQiXvzcjmcpvZYwR1B5S3", "XTZ Bakery II");
  ("tz1iJ4qgGTzyhaYEzd1RnC6duEkLBd1nzexh", "Tz Envoy");
  ("tz1Nn14BBsDULrPXtkM9UQeXaE4iqJhmqmK5", "Tezos Kitchen");
  ("tz1V4qCyvPKZ5UeqdH14HN42rxvNPQfc9UZg", "Shake 'n Bake");
  ("tz1LH4L6XYT2JNPhvWYC4Zq3XEiGgEwzNRvo", "Stir Delegate");
  ("tz1Z3KCf8CLGAYfvVWPEr562jDDyWkwNF7sT", "Stake Capital");
  ("tz1Scdr2HsZiQjc7bHMeBbmDRXYVvdhjJbBh", "Figment Networks");
  ("tz1isXamBXpTUgbByQ6gXgZQg4GWNW7r6rKE", "TEZWHALE");
  ("tz1egbN6RK2bM5vt4aAZw6r9j4nL8z49bPdS", "Money every 3 days (OLD)");
  ("tz1NEKxGEHsFufk87CVZcrqWu8o22qh46GK6", "Money every 3 days");
  ("tz1aEsrxrhTYNcg897HjSWnJ5yjR95pxVD1d", "mamabaker");
  ("tz1V3yg82mcrPJbegqVCPn6bC8w1CSTRp3f8", "TezoShop");
  ("tz1RSWMYKGAykpizFteowByYMueCYv9TMn1L", "Tezos Alliance");
  ("tz1dbfppLAAxXZNtf2SDps7rch3qfUznKSoK", "Coinhouse Staking Services");
  ("tz1dNVDWPf3Q59SdJqnjdnu277iyvReiRS9M", "Steak.and.Bake");
  ("tz1UdeKoMJivgqRgRUNzroMwRJYmJY8BtaWe", "AlphaTezos");
  ("tz1ijdEfmUoQXJfSiKCLRioeCfSrKP3sVsff", "Tezos Japan");
  ("tz1hgjLqCZWCtarByUMYd81F4FKRY5t1V978", "Tez Dispensery");
  ("tz1ZcTRk5uxD86EFEn1vvNffWWqJy7q5eVhc", "Ateza");
  ("tz1Q8QkSBS63ZQnH3fBTiAMPes9R666Rn6Sc", "YieldWallet.io");
  ("tz1STeamwbp68THcny9zk3LsbG3H36DMvbRK", "Staking Team");
  ("tz1MWhSr4oT8W67CKdxduqp4bkVyF32qsERK", "Morpheus Tezos");
  ("tz1fJHFn6sWEd3NnBPngACuw2dggTv6nQZ7g", "Baking Team");
  ("tz1aRoaRhSpRYvFdyvgWLL6TGyRoGF51wDjM", "Everstake");
  ("tz1NEKxGEHsFufk87CVZcrqWu8o22qh46GK6", "Money Every 3 Days");
  ("tz3e7LbZvUtoXhpUD1yb6wuFodZpfYRb9nWJ", "Eco Tez")
]%string.
Definition registry : list (bytes * bytes) :=
  map (fun e => (str (fst e), str (snd e))) registry_strings.
