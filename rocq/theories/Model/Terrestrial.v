(** etc/lunisolar: the conversion of UTC instants to Julian dates on the scale of
    terrestrial time, which is what the ephemeris takes, and the rolling mean.  The
    conversion is modelled on double precision numbers ([Model/Machine.v]). *)
From Coq Require Import ZArith QArith List Bool.
From Flocq Require Import IEEE754.BinarySingleNaN.
From Verif.Model Require Import Base Dates Machine Lunisolar.
Import ListNotations.
Open Scope Z_scope.

(** ** Terrestrial time *)

(** etc/lunisolar:185-186 [T], as the number of the day. *)
Definition T (year month day : Z) : Z := days_from_civil year month day.

(** etc/lunisolar:191-768 [utc_to_jd_tt.corrections]: the day an entry starts, and the
    correction in ten-thousandths of a second (no entry has more than four decimals).
    Transcribed by script. *)
Definition corrections : list (Z * Z) :=
  [(T 1700 1 1, 321840); (T 1973 2 1, 434724); (T 1973 3 1, 435648);
   (T 1973 4 1, 436737); (T 1973 5 1, 437782); (T 1973 6 1, 438763);
   (T 1973 7 1, 439562); (T 1973 8 1, 440315); (T 1973 9 1, 441132);
   (T 1973 10 1, 441982); (T 1973 11 1, 442952); (T 1973 12 1, 443936);
   (T 1974 1 1, 444840); (T 1974 2 1, 445646); (T 1974 3 1, 446425);
   (T 1974 4 1, 447386); (T 1974 5 1, 448370); (T 1974 6 1, 449302);
   (T 1974 7 1, 449986); (T 1974 8 1, 450583); (T 1974 9 1, 451284);
   (T 1974 10 1, 452064); (T 1974 11 1, 452980); (T 1974 12 1, 453897);
   (T 1975 1 1, 454761); (T 1975 2 1, 455632); (T 1975 3 1, 456450);
   (T 1975 4 1, 457374); (T 1975 5 1, 458284); (T 1975 6 1, 459133);
   (T 1975 7 1, 459820); (T 1975 8 1, 460407); (T 1975 9 1, 461067);
   (T 1975 10 1, 461825); (T 1975 11 1, 462788); (T 1975 12 1, 463713);
   (T 1976 1 1, 464567); (T 1976 2 1, 465445); (T 1976 3 1, 466311);
   (T 1976 4 1, 467302); (T 1976 5 1, 468283); (T 1976 6 1, 469247);
   (T 1976 7 1, 469970); (T 1976 8 1, 470709); (T 1976 9 1, 471450);
   (T 1976 10 1, 472361); (T 1976 11 1, 473413); (T 1976 12 1, 474319);
   (T 1977 1 1, 475214); (T 1977 2 1, 476049); (T 1977 3 1, 476837);
   (T 1977 4 1, 477781); (T 1977 5 1, 478771); (T 1977 6 1, 479687);
   (T 1977 7 1, 480348); (T 1977 8 1, 480942); (T 1977 9 1, 481608);
   (T 1977 10 1, 482460); (T 1977 11 1, 483438); (T 1977 12 1, 484355);
   (T 1978 1 1, 485344); (T 1978 2 1, 486324); (T 1978 3 1, 487294);
   (T 1978 4 1, 488365); (T 1978 5 1, 489353); (T 1978 6 1, 490319);
   (T 1978 7 1, 491013); (T 1978 8 1, 491591); (T 1978 9 1, 492285);
   (T 1978 10 1, 493070); (T 1978 11 1, 494018); (T 1978 12 1, 494945);
   (T 1979 1 1, 495861); (T 1979 2 1, 496805); (T 1979 3 1, 497602);
   (T 1979 4 1, 498556); (T 1979 5 1, 499489); (T 1979 6 1, 500347);
   (T 1979 7 1, 501018); (T 1979 8 1, 501622); (T 1979 9 1, 502260);
   (T 1979 10 1, 502968); (T 1979 11 1, 503831); (T 1979 12 1, 504599);
   (T 1980 1 1, 505387); (T 1980 2 1, 506160); (T 1980 3 1, 506866);
   (T 1980 4 1, 507658); (T 1980 5 1, 508454); (T 1980 6 1, 509187);
   (T 1980 7 1, 509761); (T 1980 8 1, 510278); (T 1980 9 1, 510843);
   (T 1980 10 1, 511538); (T 1980 11 1, 512319); (T 1980 12 1, 513063);
   (T 1981 1 1, 513808); (T 1981 2 1, 514526); (T 1981 3 1, 515160);
   (T 1981 4 1, 515985); (T 1981 5 1, 516809); (T 1981 6 1, 517573);
   (T 1981 7 1, 518133); (T 1981 8 1, 518532); (T 1981 9 1, 519014);
   (T 1981 10 1, 519603); (T 1981 11 1, 520328); (T 1981 12 1, 520985);
   (T 1982 1 1, 521668); (T 1982 2 1, 522316); (T 1982 3 1, 522938);
   (T 1982 4 1, 523680); (T 1982 5 1, 524465); (T 1982 6 1, 525179);
   (T 1982 7 1, 525751); (T 1982 8 1, 526178); (T 1982 9 1, 526668);
   (T 1982 10 1, 527340); (T 1982 11 1, 528056); (T 1982 12 1, 528792);
   (T 1983 1 1, 529565); (T 1983 2 1, 530445); (T 1983 3 1, 531268);
   (T 1983 4 1, 532197); (T 1983 5 1, 533024); (T 1983 6 1, 533747);
   (T 1983 7 1, 534335); (T 1983 8 1, 534778); (T 1983 9 1, 535300);
   (T 1983 10 1, 535845); (T 1983 11 1, 536523); (T 1983 12 1, 537256);
   (T 1984 1 1, 537882); (T 1984 2 1, 538367); (T 1984 3 1, 538830);
   (T 1984 4 1, 539443); (T 1984 5 1, 540042); (T 1984 6 1, 540536);
   (T 1984 7 1, 540856); (T 1984 8 1, 541084); (T 1984 9 1, 541463);
   (T 1984 10 1, 541914); (T 1984 11 1, 542452); (T 1984 12 1, 542958);
   (T 1985 1 1, 543427); (T 1985 2 1, 543911); (T 1985 3 1, 544320);
   (T 1985 4 1, 544898); (T 1985 5 1, 545456); (T 1985 6 1, 545977);
   (T 1985 7 1, 546355); (T 1985 8 1, 546532); (T 1985 9 1, 546776);
   (T 1985 10 1, 547174); (T 1985 11 1, 547741); (T 1985 12 1, 548253);
   (T 1986 1 1, 548712); (T 1986 2 1, 549161); (T 1986 3 1, 549580);
   (T 1986 4 1, 549997); (T 1986 5 1, 550476); (T 1986 6 1, 550912);
   (T 1986 7 1, 551132); (T 1986 8 1, 551328); (T 1986 9 1, 551532);
   (T 1986 10 1, 551898); (T 1986 11 1, 552415); (T 1986 12 1, 552838);
   (T 1987 1 1, 553222); (T 1987 2 1, 553613); (T 1987 3 1, 554063);
   (T 1987 4 1, 554629); (T 1987 5 1, 555111); (T 1987 6 1, 555524);
   (T 1987 7 1, 555812); (T 1987 8 1, 556004); (T 1987 9 1, 556262);
   (T 1987 10 1, 556656); (T 1987 11 1, 557168); (T 1987 12 1, 557698);
   (T 1988 1 1, 558197); (T 1988 2 1, 558615); (T 1988 3 1, 559130);
   (T 1988 4 1, 559663); (T 1988 5 1, 560220); (T 1988 6 1, 560700);
   (T 1988 7 1, 560939); (T 1988 8 1, 561105); (T 1988 9 1, 561314);
   (T 1988 10 1, 561611); (T 1988 11 1, 562068); (T 1988 12 1, 562582);
   (T 1989 1 1, 563000); (T 1989 2 1, 563399); (T 1989 3 1, 563790);
   (T 1989 4 1, 564283); (T 1989 5 1, 564804); (T 1989 6 1, 565352);
   (T 1989 7 1, 565697); (T 1989 8 1, 565983); (T 1989 9 1, 566328);
   (T 1989 10 1, 566739); (T 1989 11 1, 567332); (T 1989 12 1, 567972);
   (T 1990 1 1, 568553); (T 1990 2 1, 569111); (T 1990 3 1, 569755);
   (T 1990 4 1, 570471); (T 1990 5 1, 571136); (T 1990 6 1, 571738);
   (T 1990 7 1, 572226); (T 1990 8 1, 572597); (T 1990 9 1, 573073);
   (T 1990 10 1, 573643); (T 1990 11 1, 574334); (T 1990 12 1, 575016);
   (T 1991 1 1, 575653); (T 1991 2 1, 576333); (T 1991 3 1, 576973);
   (T 1991 4 1, 577711); (T 1991 5 1, 578407); (T 1991 6 1, 579058);
   (T 1991 7 1, 579576); (T 1991 8 1, 579975); (T 1991 9 1, 580425);
   (T 1991 10 1, 581043); (T 1991 11 1, 581679); (T 1991 12 1, 582389);
   (T 1992 1 1, 583092); (T 1992 2 1, 583833); (T 1992 3 1, 584537);
   (T 1992 4 1, 585401); (T 1992 5 1, 586228); (T 1992 6 1, 586917);
   (T 1992 7 1, 587410); (T 1992 8 1, 587836); (T 1992 9 1, 588405);
   (T 1992 10 1, 588986); (T 1992 11 1, 589714); (T 1992 12 1, 590438);
   (T 1993 1 1, 591218); (T 1993 2 1, 592003); (T 1993 3 1, 592747);
   (T 1993 4 1, 593574); (T 1993 5 1, 594434); (T 1993 6 1, 595242);
   (T 1993 7 1, 595850); (T 1993 8 1, 596343); (T 1993 9 1, 596928);
   (T 1993 10 1, 597588); (T 1993 11 1, 598386); (T 1993 12 1, 599111);
   (T 1994 1 1, 599844); (T 1994 2 1, 600564); (T 1994 3 1, 601231);
   (T 1994 4 1, 602042); (T 1994 5 1, 602804); (T 1994 6 1, 603530);
   (T 1994 7 1, 604012); (T 1994 8 1, 604440); (T 1994 9 1, 604900);
   (T 1994 10 1, 605578); (T 1994 11 1, 606324); (T 1994 12 1, 607059);
   (T 1995 1 1, 607853); (T 1995 2 1, 608663); (T 1995 3 1, 609387);
   (T 1995 4 1, 610277); (T 1995 5 1, 611103); (T 1995 6 1, 611870);
   (T 1995 7 1, 612454); (T 1995 8 1, 612881); (T 1995 9 1, 613378);
   (T 1995 10 1, 614036); (T 1995 11 1, 614760); (T 1995 12 1, 615525);
   (T 1996 1 1, 616287); (T 1996 2 1, 616846); (T 1996 3 1, 617433);
   (T 1996 4 1, 618132); (T 1996 5 1, 618823); (T 1996 6 1, 619497);
   (T 1996 7 1, 619969); (T 1996 8 1, 620343); (T 1996 9 1, 620714);
   (T 1996 10 1, 621202); (T 1996 11 1, 621809); (T 1996 12 1, 622382);
   (T 1997 1 1, 622950); (T 1997 2 1, 623506); (T 1997 3 1, 623995);
   (T 1997 4 1, 624754); (T 1997 5 1, 625463); (T 1997 6 1, 626136);
   (T 1997 7 1, 626571); (T 1997 8 1, 626942); (T 1997 9 1, 627383);
   (T 1997 10 1, 627926); (T 1997 11 1, 628567); (T 1997 12 1, 629146);
   (T 1998 1 1, 629659); (T 1998 2 1, 630217); (T 1998 3 1, 630807);
   (T 1998 4 1, 631462); (T 1998 5 1, 632053); (T 1998 6 1, 632599);
   (T 1998 7 1, 632844); (T 1998 8 1, 632961); (T 1998 9 1, 633126);
   (T 1998 10 1, 633422); (T 1998 11 1, 633871); (T 1998 12 1, 634339);
   (T 1999 1 1, 634673); (T 1999 2 1, 634979); (T 1999 3 1, 635319);
   (T 1999 4 1, 635679); (T 1999 5 1, 636104); (T 1999 6 1, 636444);
   (T 1999 7 1, 636642); (T 1999 8 1, 636739); (T 1999 9 1, 636926);
   (T 1999 10 1, 637147); (T 1999 11 1, 637518); (T 1999 12 1, 637927);
   (T 2000 1 1, 638285); (T 2000 2 1, 638557); (T 2000 3 1, 638804);
   (T 2000 4 1, 639075); (T 2000 5 1, 639393); (T 2000 6 1, 639691);
   (T 2000 7 1, 639799); (T 2000 8 1, 639833); (T 2000 9 1, 639938);
   (T 2000 10 1, 640093); (T 2000 11 1, 640400); (T 2000 12 1, 640670);
   (T 2001 1 1, 640908); (T 2001 2 1, 641068); (T 2001 3 1, 641282);
   (T 2001 4 1, 641584); (T 2001 5 1, 641833); (T 2001 6 1, 642094);
   (T 2001 7 1, 642117); (T 2001 8 1, 642073); (T 2001 9 1, 642116);
   (T 2001 10 1, 642223); (T 2001 11 1, 642500); (T 2001 12 1, 642761);
   (T 2002 1 1, 642998); (T 2002 2 1, 643192); (T 2002 3 1, 643450);
   (T 2002 4 1, 643735); (T 2002 5 1, 643943); (T 2002 6 1, 644151);
   (T 2002 7 1, 644132); (T 2002 8 1, 644118); (T 2002 9 1, 644097);
   (T 2002 10 1, 644168); (T 2002 11 1, 644329); (T 2002 12 1, 644511);
   (T 2003 1 1, 644734); (T 2003 2 1, 644893); (T 2003 3 1, 645053);
   (T 2003 4 1, 645269); (T 2003 5 1, 645471); (T 2003 6 1, 645597);
   (T 2003 7 1, 645512); (T 2003 8 1, 645371); (T 2003 9 1, 645359);
   (T 2003 10 1, 645415); (T 2003 11 1, 645544); (T 2003 12 1, 645654);
   (T 2004 1 1, 645736); (T 2004 2 1, 645891); (T 2004 3 1, 646015);
   (T 2004 4 1, 646176); (T 2004 5 1, 646374); (T 2004 6 1, 646549);
   (T 2004 7 1, 646530); (T 2004 8 1, 646379); (T 2004 9 1, 646372);
   (T 2004 10 1, 646400); (T 2004 11 1, 646543); (T 2004 12 1, 646723);
   (T 2005 1 1, 646876); (T 2005 2 1, 647052); (T 2005 3 1, 647313);
   (T 2005 4 1, 647575); (T 2005 5 1, 647811); (T 2005 6 1, 648001);
   (T 2005 7 1, 647995); (T 2005 8 1, 647876); (T 2005 9 1, 647831);
   (T 2005 10 1, 647921); (T 2005 11 1, 648096); (T 2005 12 1, 648311);
   (T 2006 1 1, 648452); (T 2006 2 1, 648597); (T 2006 3 1, 648850);
   (T 2006 4 1, 649175); (T 2006 5 1, 649480); (T 2006 6 1, 649794);
   (T 2006 7 1, 649895); (T 2006 8 1, 650028); (T 2006 9 1, 650138);
   (T 2006 10 1, 650371); (T 2006 11 1, 650773); (T 2006 12 1, 651122);
   (T 2007 1 1, 651464); (T 2007 2 1, 651833); (T 2007 3 1, 652145);
   (T 2007 4 1, 652494); (T 2007 5 1, 652921); (T 2007 6 1, 653279);
   (T 2007 7 1, 653413); (T 2007 8 1, 653452); (T 2007 9 1, 653496);
   (T 2007 10 1, 653711); (T 2007 11 1, 653972); (T 2007 12 1, 654296);
   (T 2008 1 1, 654574); (T 2008 2 1, 654868); (T 2008 3 1, 655152);
   (T 2008 4 1, 655450); (T 2008 5 1, 655781); (T 2008 6 1, 656127);
   (T 2008 7 1, 656288); (T 2008 8 1, 656370); (T 2008 9 1, 656493);
   (T 2008 10 1, 656760); (T 2008 11 1, 657097); (T 2008 12 1, 657461);
   (T 2009 1 1, 657768); (T 2009 2 1, 658025); (T 2009 3 1, 658237);
   (T 2009 4 1, 658595); (T 2009 5 1, 658973); (T 2009 6 1, 659323);
   (T 2009 7 1, 659509); (T 2009 8 1, 659534); (T 2009 9 1, 659628);
   (T 2009 10 1, 659839); (T 2009 11 1, 660147); (T 2009 12 1, 660421);
   (T 2010 1 1, 660699); (T 2010 2 1, 660961); (T 2010 3 1, 661310);
   (T 2010 4 1, 661683); (T 2010 5 1, 662072); (T 2010 6 1, 662356);
   (T 2010 7 1, 662409); (T 2010 8 1, 662335); (T 2010 9 1, 662349);
   (T 2010 10 1, 662441); (T 2010 11 1, 662751); (T 2010 12 1, 663054);
   (T 2011 1 1, 663246); (T 2011 2 1, 663406); (T 2011 3 1, 663624);
   (T 2011 4 1, 663957); (T 2011 5 1, 664289); (T 2011 6 1, 664619);
   (T 2011 7 1, 664749); (T 2011 8 1, 664751); (T 2011 9 1, 664829);
   (T 2011 10 1, 665056); (T 2011 11 1, 665383); (T 2011 12 1, 665706);
   (T 2012 1 1, 666030); (T 2012 2 1, 666340); (T 2012 3 1, 666569);
   (T 2012 4 1, 666925); (T 2012 5 1, 667289); (T 2012 6 1, 667579);
   (T 2012 7 1, 667708); (T 2012 8 1, 667740); (T 2012 9 1, 667846);
   (T 2012 10 1, 668103); (T 2012 11 1, 668401); (T 2012 12 1, 668779);
   (T 2013 1 1, 669069); (T 2013 2 1, 669443); (T 2013 3 1, 669763);
   (T 2013 4 1, 670258); (T 2013 5 1, 670716); (T 2013 6 1, 671100);
   (T 2013 7 1, 671266); (T 2013 8 1, 671331); (T 2013 9 1, 671458);
   (T 2013 10 1, 671717); (T 2013 11 1, 672091); (T 2013 12 1, 672460);
   (T 2014 1 1, 672810); (T 2014 2 1, 673136); (T 2014 3 1, 673457);
   (T 2014 4 1, 673890); (T 2014 5 1, 674318); (T 2014 6 1, 674666);
   (T 2014 7 1, 674859); (T 2014 8 1, 674989); (T 2014 9 1, 675111);
   (T 2014 10 1, 675353); (T 2014 11 1, 675711); (T 2014 12 1, 676070);
   (T 2015 1 1, 676439); (T 2015 2 1, 676765); (T 2015 3 1, 677117);
   (T 2015 4 1, 677591); (T 2015 5 1, 678012); (T 2015 6 1, 678402);
   (T 2015 7 1, 678606); (T 2015 8 1, 678822); (T 2015 9 1, 679120);
   (T 2015 10 1, 679547); (T 2015 11 1, 680055); (T 2015 12 1, 680514);
   (T 2016 1 1, 681024); (T 2016 2 1, 681577); (T 2016 3 1, 682044);
   (T 2016 4 1, 682665); (T 2016 5 1, 683188); (T 2016 6 1, 683704);
   (T 2016 7 1, 683964); (T 2016 8 1, 684095); (T 2016 9 1, 684305);
   (T 2016 10 1, 684630); (T 2016 11 1, 685078); (T 2016 12 1, 685537);
   (T 2017 1 1, 685927); (T 2017 2 1, 686298); (T 2017 3 1, 686671);
   (T 2017 4 1, 687135); (T 2017 5 1, 687623); (T 2017 6 1, 688033);
   (T 2017 7 1, 688245); (T 2017 8 1, 688373); (T 2017 9 1, 688477);
   (T 2017 10 1, 688689); (T 2017 11 1, 689006); (T 2017 12 1, 689355);
   (T 2018 1 1, 689677); (T 2018 3 1, 691400); (T 2018 6 1, 693000);
   (T 2018 9 1, 693000); (T 2019 1 1, 695000); (T 2019 3 1, 696000);
   (T 2019 6 1, 697000); (T 2019 9 1, 698000); (T 2020 1 1, 699000);
   (T 2020 3 1, 700000); (T 2020 6 1, 700000); (T 2020 9 1, 700000);
   (T 2021 1 1, 700000); (T 2021 3 1, 700000); (T 2021 6 1, 700000);
   (T 2021 9 1, 700000); (T 2022 1 1, 700000); (T 2022 3 1, 700000);
   (T 2022 6 1, 710000); (T 2022 9 1, 710000); (T 2023 1 1, 710000);
   (T 2023 3 1, 710000); (T 2023 6 1, 710000); (T 2023 9 1, 710000);
   (T 2024 1 1, 710000); (T 2024 3 1, 710000); (T 2024 6 1, 710000);
   (T 2024 9 1, 710000); (T 2025 1 1, 710000); (T 2025 3 1, 720000);
   (T 2025 6 1, 720000); (T 2025 9 1, 720000); (T 2026 1 1, 720000)].

(** The quotient of two doubles. *)
Definition div_double (x y : binary64) : binary64 :=
  Bdiv (prec_gt_0_ := prec53) (prec_lt_emax_ := prec53_emax) mode_NE x y.

(** etc/lunisolar:191-770, the column [julian_days]: the literal is the double next to
    the decimal fraction; the in-place division by [60 * 60 * 24]. *)
Definition julian_days (entry : Z * Z) : binary64 :=
  div_double (true_divide (snd entry) 10000) (to_double (60 * 60 * 24)).

(** etc/lunisolar:159-182 [utc_to_jd_tt], one element of [ts], in seconds ([M8[s]]).
    numpy compares the days of the table with [ts] in the finer unit. *)
Definition utc_to_jd_tt1 (ts : Z) : binary64 :=
  let jd_utc := add_double (true_divide ts 86400) (true_divide 4881175 2) in
  let correction_ix := searchsorted_right (map (fun e => fst e * 86400) corrections) ts in
  let correction_ix := if correction_ix =? zlen corrections then correction_ix - 1 else correction_ix in
  add_double jd_utc (nth (Z.to_nat correction_ix) (map julian_days corrections) (B754_zero false)).

(** etc/lunisolar:159-182 [utc_to_jd_tt].  NaT and instants that 64 bits cannot hold
    in seconds are left out. *)
Definition utc_to_jd_tt (ts : list Z) : list binary64 := map utc_to_jd_tt1 ts.

(** ** Rolling mean, with exact fractions for the doubles *)

(** numpy/core/numeric.py [correlate(a, v, mode='valid')] (numpy 1.19.3) for
    [len(v) <= len(a)]. *)
Definition dot (a v : list Q) : Q :=
  fold_right Qplus 0%Q (map2 Qmult a v).
Definition correlate_valid (a v : list Q) : list Q :=
  map (fun k => dot (skipn k a) v) (seq 0 (S (length a - length v))).

(** numpy/core/numeric.py [convolve(a, v, mode='valid')]: the longer array comes
    first; ValueError if one is empty. *)
Definition convolve_valid (a v : list Q) : result (list Q) :=
  let '(a, v) := if Nat.ltb (length a) (length v) then (v, a) else (a, v) in
  match a, v with
  | [], _ | _, [] => Raise ValueError
  | _, _ => Ok (correlate_valid a (rev v))
  end.

(** etc/lunisolar:80-95 [smooth]; [np.ones] refuses a negative length with
    ValueError, and [np.ones(0) / 0] is empty. *)
Definition smooth (arr : list Q) (window : Z) : result (list Q) :=
  if window <? 0 then Raise ValueError
  else convolve_valid (map (fun x => x / inject_Z window)%Q (repeat 1%Q (Z.to_nat window))) arr.

(** etc/lunisolar:137-156 [smoothed_local_cmp] *)
Definition smoothed_local_cmp (f : Q -> Q -> bool) (arr : list Q) (window : Z) : result (list Z) :=
  do smoothed <- smooth arr window;
  Ok (map (fun i => Z.of_nat i + window / 2) (local_cmp f smoothed)).
