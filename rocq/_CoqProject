-Q theories Verif
theories/Machine.v
theories/Time.v
theories/Decoder.v
theories/Nec.v
theories/Rc5.v
theories/Rc6.v
theories/Denon.v
theories/Sbp.v
theories/Receiver.v
theories/Sender.v
theories/Remote.v
theories/Spec.v
theories/Bits.v
theories/Codec_facts.v
theories/Props_codec.v
theories/Props_create.v
theories/Time_facts.v
theories/Window_facts.v
theories/Props_time.v
theories/Example_facts.v
theories/Run_facts.v
theories/Nec_facts.v
theories/Sbp_facts.v
theories/Denon_facts.v
theories/Rc5_facts.v
theories/Rc6_facts.v
theories/Props_decode.v
theories/Spec_receiver.v
theories/Receiver_facts.v
theories/Props_receiver.v
theories/Spec_state.v
theories/State_facts.v
theories/Props_state.v
theories/Spec_sender.v
theories/Encode_facts.v
theories/Roundtrip_facts.v
theories/Props_encode.v
theories/Sender_facts.v
theories/Air_facts.v
theories/Props_sender.v
theories/Props_tail.v
theories/Props_remote.v
theories/Spec_sound.v
theories/Sound_facts.v
theories/Biphase_facts.v
theories/Props_sound.v
theories/Spec_cross.v
theories/Cross_facts.v
theories/Props_cross.v
theories/Traffic_facts.v
theories/Props_traffic.v
theories/Spec_phys.v
theories/Phys_facts.v
theories/Props_phys.v
theories/Poll_facts.v
theories/Props_poll.v
theories/Spec_keys.v
theories/Keys_facts.v
theories/Props_keys.v
theories/Apps.v
theories/Spec_apps.v
theories/Apps_facts.v
theories/AppSender_facts.v
theories/Props_apps.v
theories/Spec_listen.v
theories/Listen_facts.v
theories/Props_listen.v
theories/Props_usb.v
theories/Pollkeys_facts.v
theories/Pollbi_facts.v
theories/Props_pollkeys.v
theories/Props_tutorial.v
theories/Multi_facts.v
theories/Props_multi.v
theories/Props_pause.v
theories/Props_pico.v
theories/Series_facts.v
theories/Props_series.v
theories/Clocks_facts.v
theories/Props_clocks.v
theories/Props_polltraffic.v
theories/Spec_held.v
theories/Held_facts.v
theories/Props_held.v
theories/Props_rates.v
theories/Spec_rate.v
theories/Rate_facts.v
theories/Props_rate.v
theories/Props_leader.v
theories/Spec_grammar.v
theories/Grammar_facts.v
theories/Props_grammar.v
theories/Spec_biread.v
theories/Biread_facts.v
theories/Props_biread.v
theories/Props_unique.v
theories/Props_stretch.v
theories/Props_anywhere.v
theories/Props_every.v
theories/Spec_calls.v
theories/Props_calls.v
theories/Spec_bands.v
theories/Bands_facts.v
theories/Props_bands.v
theories/Spec_pauses.v
theories/Props_pauses.v
theories/Spec_damage.v
theories/Damage_facts.v
theories/Props_damage.v
theories/Spec_glitch.v
theories/Glitch_facts.v
theories/Glitch6_facts.v
theories/Props_glitch.v
theories/Glitchd_facts.v
theories/Props_glitchd.v
theories/Damage6_facts.v
theories/Props_damage6.v
theories/Spec_invert.v
theories/Invert_facts.v
theories/Props_invert.v
theories/Spec_join.v
theories/Join_facts.v
theories/Props_join.v
theories/Joinany_facts.v
theories/Props_joinany.v
theories/Spec_air.v
theories/Props_air.v
theories/Crate_tests.v
theories/Spec_overflow.v
theories/Overflow_facts.v
theories/Props_overflow.v
theories/Props_sums.v
theories/Spec_inside.v
theories/Props_inside.v
theories/Props_finished.v
theories/Spec_broken.v
theories/Broken_facts.v
theories/Props_broken.v
theories/Props_checksum.v
theories/Props_apple.v
theories/Spec_brokenreal.v
theories/Props_brokenreal.v
theories/Props_brokenpoll.v
